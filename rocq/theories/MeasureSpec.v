(** Vocabulary for the properties of a measurement, written without the functions of the model. *)
From Verif Require Import Base MeasureModel.
Open Scope nat_scope.

(** The values in a scalar or array result. *)
Definition entries {A} (o : out A) : list A := match o with Scalar a => [a] | Arr l => l end.
Definition is_scalar {A} (o : out A) : bool := match o with Scalar _ => true | Arr _ => false end.
Definition requested (c : config) : list Q := match c_ref c with TimeRef l => l | FreqRef l => l end.

(** [ts] are the samples of [t] at the listed locations. *)
Definition samples_at (t : list Q) (loc : list nat) (ts : list Q) : Prop :=
  Forall2 (fun i x => nth_error t i = Some x) loc ts.
Definition first_is {A} (l : list A) (a : A) : Prop := exists r, l = a :: r.
Definition last_is {A} (l : list A) (a : A) : Prop := exists r, l = (r ++ [a])%list.
(** [lo] is the later of the two first times, [hi] the earlier of the two last times. *)
Definition common_window (tp ta : list Q) (lo hi : Q) : Prop :=
  exists pf pl af al, first_is tp pf /\ last_is tp pl /\ first_is ta af /\ last_is ta al /\
    (pf <= lo)%Q /\ (af <= lo)%Q /\ (lo = pf \/ lo = af) /\
    (hi <= pl)%Q /\ (hi <= al)%Q /\ (hi = pl \/ hi = al).
(** [out] keeps exactly the entries of [l] satisfying P, in order and with multiplicity. *)
Inductive keeps_exactly {A} (P : A -> Prop) : list A -> list A -> Prop :=
| KNil : keeps_exactly P [] []
| KKeep x l out : P x -> keeps_exactly P l out -> keeps_exactly P (x :: l) (x :: out)
| KDrop x l out : ~ P x -> keeps_exactly P l out -> keeps_exactly P (x :: l) out.
Definition within (lo hi t : Q) : Prop := (lo <= t <= hi)%Q.

(** More than five orbits between the first and the last sample: the phase grows by more than 20 pi. *)
Definition long_waveform (c : config) : Prop :=
  exists a b, first_is (c_phase c) a /\ last_is (c_phase c) b /\ (20 * np_pi < b - a)%Q.

(** The averaged frequencies [w] turned into bounds on reference frequencies: the smallest and the largest
    entry, divided by 2 pi. *)
Definition bounds_of (w : list Q) (lo hi : Q) : Prop :=
  exists wmin wmax, In wmin w /\ In wmax w /\ (forall x, In x w -> (wmin <= x <= wmax)%Q) /\
    (lo == wmin / (2 * np_pi))%Q /\ (hi == wmax / (2 * np_pi))%Q.
Definition in_range (lo hi f : Q) : Prop := (lo <= f /\ f < hi)%Q.

(** [f] evaluated inside the span of the extrema: the interpolating spline of the points (x, y) of some degree,
    never outside the first and last x. *)
Definition spline_through (spline_val : list Q -> list Q -> nat -> Q -> Q) (x y : list Q) (f : curve) : Prop :=
  exists k, forall t v, f t = Ok v ->
    v = spline_val x y k t /\ exists a b, first_is x a /\ last_is x b /\ (a <= t <= b)%Q.
(** The curve used for one kind of extrema: through exactly the samples (t, omega) at the locations [loc]. *)
Definition drawn_through spline_val (rfit : list Q -> list Q -> Z * Z -> res curve) (c : config) (loc : list nat) (f : curve) : Prop :=
  exists x y, samples_at (c_t c) loc x /\ samples_at (c_omega c) loc y /\
    match c_interp c with
    | SplineMethod => spline_through spline_val x y f
    | RationalMethod => (exists d, rfit x y d = Ok f) \/ spline_through spline_val x y f
    end.

(** The mean anomaly at time t: the fraction of the way from one pericenter to the next, times 2 pi; 0 at the
    last pericenter. *)
Definition mean_anomaly_is (tp : list Q) (t m : Q) : Prop :=
  (exists i a b, nth_error tp i = Some a /\ nth_error tp (S i) = Some b /\ (a <= t < b)%Q /\
     (m == 2 * np_pi * ((t - a) / (b - a)))%Q) \/
  (exists a, last_is tp a /\ (t == a)%Q /\ (m == 0)%Q).
(** A different reference input for the same waveform and options. *)
Definition with_ref (c : config) (r : reference) : config :=
  {| c_t := c_t c; c_data_t := c_data_t c; c_phase := c_phase c; c_omega := c_omega c; c_ref := r;
     c_scalar := c_scalar c; c_precessing := c_precessing c; c_filtered := c_filtered c;
     c_midpoints := c_midpoints c; c_return_zero := c_return_zero c; c_interp := c_interp c;
     c_average := c_average c; c_use_only := c_use_only c; c_special := c_special c; c_general := c_general c;
     c_zeroecc := c_zeroecc c |}.

(** Two lists of times that alternate, the first list first; [le] is <= or <. *)
Inductive zigzag (le : Q -> Q -> Prop) : list Q -> list Q -> Prop :=
| ZNil : zigzag le [] []
| ZOne x : zigzag le [x] []
| ZMore x xs y ys : le x y -> zigzag le (y :: ys) xs -> zigzag le (x :: xs) (y :: ys).
Definition alternate (le : Q -> Q -> Prop) (tp ta : list Q) : Prop := zigzag le tp ta \/ zigzag le ta tp.
(** Some pair of consecutive values satisfies R. *)
Definition some_neighbours (R : Q -> Q -> Prop) (l : list Q) : Prop :=
  exists i x y, nth_error l i = Some x /\ nth_error l (S i) = Some y /\ R x y.
(** Some triple of consecutive values satisfies R. *)
Definition some_triple (R : Q -> Q -> Q -> Prop) (l : list Q) : Prop :=
  exists i x y z, nth_error l i = Some x /\ nth_error l (S i) = Some y /\ nth_error l (S (S i)) = Some z /\ R x y z.

(** The averaged frequency [ws] at the times [ts], by method.  [lo, hi] is the window common to pericenters and
    apocenters, [fp] and [fa] the two curves, [tp] and [ta] the times of the extrema, [php] and [pha] the phases there. *)
(** (midpoint, phase advance over elapsed time) of each pair of consecutive extrema *)
Inductive orbit_points : list Q -> list Q -> list (Q * Q) -> Prop :=
| OPnil : orbit_points [] [] []
| OPone t x : orbit_points [t] [x] []
| OPmore t u ts x y xs l : orbit_points (u :: ts) (y :: xs) l ->
    orbit_points (t :: u :: ts) (x :: y :: xs) ((((1 # 2) * (t + u))%Q, ((y - x) / (u - t))%Q) :: l).
(** the window cut down to the times between the first and the last of the midpoints *)
Definition cut_window (mids : list Q) (lo hi lo' hi' : Q) : Prop :=
  exists a b, In a mids /\ In b mids /\ (forall m, In m mids -> (a <= m <= b)%Q) /\
    (lo <= lo' /\ a <= lo' /\ (lo' = lo \/ lo' = a))%Q /\ (hi' <= hi /\ hi' <= b /\ (hi' = hi \/ hi' = b))%Q.
