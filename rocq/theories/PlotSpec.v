(** Vocabulary for the properties of the diagnostic plots. *)
From Verif Require Import Base MeasureModel MeasureSpec SegmentModel InitModel PlotModel.
Open Scope nat_scope.

(** What is on one axis. *)
Definition on {V} (ax : nat) (k : canvas V) : list (artist V) := map snd (filter (fun p => fst p =? ax) (k_art k)).
(** Every drawn thing is on an axis that exists, every axis is in a figure that exists. *)
Definition sound {V} (k : canvas V) : Prop :=
  (forall ax a, In (ax, a) (k_art k) -> ax < length (k_axes k)) /\ (forall f, In f (k_axes k) -> f < k_figs k).

(** The ratio of successive phase differences, one point for the third and each later extremum: at the time of the
    extremum, (phase there - phase at the previous one) / (that one - the one before it). *)
Definition ratio_curve (c : config) (loc : list nat) (x y : list Q) : Prop :=
  length x = length loc - 2 /\ length y = length loc - 2 /\
  forall i a b d, nth_error loc i = Some a -> nth_error loc (S i) = Some b -> nth_error loc (S (S i)) = Some d ->
    exists fa fb fd t v, nth_error (c_phase c) a = Some fa /\ nth_error (c_phase c) b = Some fb /\ nth_error (c_phase c) d = Some fd /\
      nth_error (c_t c) d = Some t /\ nth_error x i = Some t /\ nth_error y i = Some v /\ (v == (fd - fb) / (fb - fa))%Q.

(** A curve (x, y) gives, at every time that is also in ts, the value listed there. *)
Definition agrees {A} (x : list Q) (y : list A) (ts : list Q) (vs : list A) : Prop :=
  length x = length y /\ forall i j t, nth_error x i = Some t -> nth_error ts j = Some t -> nth_error y i = nth_error vs j.

(** How a single reference time is shown: a vertical line and a dot at the measured value, if wanted. *)
Definition marked {V} (vline : bool) (ts : list Q) (y : values V) (m : list (artist V)) : Prop :=
  match ts with [t] => if vline then m = [VLine t; Line dot [t] y] else m = [] | _ => m = [] end.
(** All curves of numbers lie within the limits of the vertical axis. *)
Definition holds_all {V} (arts : list (artist V)) : Prop :=
  forall lo hi k x y v, In (Limits lo hi) arts -> In (Line k x (Numbers y)) arts -> In v y -> (lo <= v <= hi)%Q.

(** The data behind the four plots that show data and its extrema. *)
Definition panel_data {V} (k : panel) (o : plotted V) (y : list Q) : Prop :=
  match k with
  | PData => y = o_data (q_object o)
  | PAmp => y = w_amp (b_wave (o_base (q_object o)))
  | PResAmp => exists r, b_residual (o_base (q_object o)) = Some r /\ y = rs_amp r
  | PResOmega => exists r, b_residual (o_base (q_object o)) = Some r /\ y = rs_omega r
  | _ => False
  end.
(** Dots at the extrema: pericenters in their colour, then apocenters in theirs. *)
Definition extrema_marked {V} (o : plotted V) (y : list Q) (l : list (artist V)) : Prop :=
  exists p a kp ka tp yp ta ya, s_peri (q_state o) = Some p /\ s_apo (q_state o) = Some a /\
    l = [Line kp tp (Numbers yp); Line ka ta (Numbers ya)] /\ In ("c", "pericenter")%string kp /\ In ("c", "apocenter")%string ka /\
    samples_at (c_t (q_config o)) p tp /\ samples_at y p yp /\ samples_at (c_t (q_config o)) a ta /\ samples_at y a ya.

Section Histories.
  Context {V : Type}.
  Variables (ecc_of : Q -> Q -> V) (sv : list Q -> list Q -> nat -> Q -> Q) (pv : list Q -> list Q -> Q -> Q).
  Variable slope : list Q -> list V -> list bool.
  (** Any sequence of plots of one object, whatever each of them replies. *)
  Fixpoint plot_all (l : list (panel * request)) (o : plotted V) (cv : canvas V) : plotted V * canvas V :=
    match l with
    | [] => (o, cv)
    | (k, rq) :: r => let '(o1, cv1, _) := plot ecc_of sv pv slope k rq o cv in plot_all r o1 cv1
    end.
End Histories.
