(** Specification of the envelope-fit search for extrema (C40-C41), stated over the data, the peak finder and the envelope. *)
From Coq Require Import Sorting.Sorted.
From Verif Require Import Base FitsModel.
Open Scope list_scope.
Open Scope nat_scope.

(** What scipy documents of find_peaks: strictly increasing positions inside the data. *)
Definition peaks_contract (find_peaks : list Q -> Z -> Q -> res (list nat)) : Prop :=
  forall l distance prominence idx, find_peaks l distance prominence = Ok idx ->
    StronglySorted lt idx /\ Forall (fun i => i < length l) idx.

(** [r] is data minus the envelope with parameters p over the samples lo..hi-1; none of the times is beyond T. *)
Definition detrended (env : Q -> params -> Q -> res Q) (d : fits) (t0 : Q) (p : params) (lo hi : nat) (r : list Q) : Prop :=
  Forall (fun t => (t <= q_T p)%Q) (slice (f_t d) lo hi) /\
  exists fit, Forall2 (fun t y => env t0 p t = Ok y) (slice (f_t d) lo hi) fit /\ r = map2 Qminus (slice (f_data d) lo hi) fit.

(** The distance and prominence asked of the peak finder are those of some window: distance_factor orbital periods in
    samples of the largest time step, and prominence_factor times the range of the detrended data. *)
Definition asked (env : Q -> params -> Q -> res Q) (d : fits) (t0 : Q) (distance : Z) (prominence : Q) : Prop :=
  exists lo hi p r top bottom step ta tb pa pb,
    detrended env d t0 p lo hi r /\
    In top r /\ In bottom r /\ Forall (fun y => bottom <= y /\ y <= top)%Q r /\
    prominence = ((top - bottom) * f_prominence d)%Q /\
    In step (qdiff (slice (f_t d) lo hi)) /\ Forall (fun s => s <= step)%Q (qdiff (slice (f_t d) lo hi)) /\
    nth_error (f_t d) lo = Some ta /\ nth_error (f_phase d) lo = Some pa /\
    nth_error (f_t d) (hi - 1) = Some tb /\ nth_error (f_phase d) (hi - 1) = Some pb /\
    distance = q_int (f_distance d * ((tb - ta) / (pb - pa) * 4 * np_pi) / step)%Q.

(** Location i is a peak of sign times the data detrended over a window that contains it. *)
Definition extremum (env : Q -> params -> Q -> res Q) (find_peaks : list Q -> Z -> Q -> res (list nat)) (d : fits) (t0 sign : Q)
    (i : nat) : Prop :=
  exists lo hi p r distance prominence peaks k,
    detrended env d t0 p lo hi r /\ asked env d t0 distance prominence /\
    find_peaks (map (fun y => sign * y)%Q r) distance prominence = Ok peaks /\ In k peaks /\ i = lo + k.

(** The time, data and phase at sample i. *)
Definition sample (d : fits) (i : nat) (x : point) : Prop :=
  nth_error (f_t d) i = Some (fst (fst x)) /\ nth_error (f_data d) i = Some (snd (fst x)) /\ nth_error (f_phase d) i = Some (snd x).

(** The middle of the time interval. *)
Definition centre (d : fits) (t0 : Q) : Prop :=
  exists a b, nth_error (f_t d) 0 = Some a /\ nth_error (f_t d) (length (f_t d) - 1) = Some b /\ t0 = ((1 # 2) * (a + b))%Q.

(** [x] is sample [s] moved to the vertex of a parabola through the detrended data within 0.05/(data value) of it, when
    at least seven samples are that close; otherwise it is [s]. *)
Definition improved (env : Q -> params -> Q -> res Q) (parabola : list Q -> list Q -> res (Q * Q)) (cubic : list Q -> list Q -> Q -> res Q)
    (d : fits) (t0 : Q) (p : params) (s x : point) : Prop :=
  exists close, StronglySorted lt close /\
    (forall i, In i close <-> exists t, nth_error (f_t d) i = Some t /\ (Qabs.Qabs (t - fst (fst s)) < (5 # 100) / snd (fst s))%Q) /\
    (length close < 7 -> x = s) /\
    (7 <= length close -> exists ts ys phs fit vertex top e c,
       Forall2 (fun i t => nth_error (f_t d) i = Some t) close ts /\ Forall2 (fun i y => nth_error (f_data d) i = Some y) close ys /\
       Forall2 (fun i y => nth_error (f_phase d) i = Some y) close phs /\
       Forall2 (fun t y => env t0 p t = Ok y) ts fit /\ parabola ts (map2 Qminus ys fit) = Ok (vertex, top) /\
       env t0 p vertex = Ok e /\ cubic ts phs vertex = Ok c /\ x = (vertex, top + e, c)%Q).

(** The (time, data, phase) stored for location i: the sample itself, or the sample moved when refine_extrema is set. *)
Definition stored (env : Q -> params -> Q -> res Q) (parabola : list Q -> list Q -> res (Q * Q)) (cubic : list Q -> list Q -> Q -> res Q)
    (d : fits) (t0 : Q) (i : nat) (x : point) : Prop :=
  exists s, sample d i s /\ if f_refine d then exists p, improved env parabola cubic d t0 p s x else x = s.

(** C40 for times counted from the merger. *)
Definition found_in (env : Q -> params -> Q -> res Q) (find_peaks : list Q -> Z -> Q -> res (list nat))
    (parabola : list Q -> list Q -> res (Q * Q)) (cubic : list Q -> list Q -> Q -> res Q) (d : fits) (sign : Q)
    (locations : list nat) (info : list point) : Prop :=
  StronglySorted lt locations /\ Forall (fun i => i < length (f_data d)) locations /\
  exists t0, centre d t0 /\ Forall (extremum env find_peaks d t0 sign) locations /\
    Forall2 (stored env parabola cubic d t0) locations info.

(** The object's data with the merger time subtracted from every time. *)
Definition from_merger (d : fits) (t_merger : Q) : fits := with_times d (map (fun t => t - t_merger)%Q (f_t d)).

(** A library call that returns or raises (it does not run out of passes); one that does not raise IndexError. *)
Definition nf {A} (r : res A) : Prop := r <> Err OutOfFuel.
Definition ni {A} (r : res A) : Prop := r <> Err IndexError.
Section Library.
  Context (env : Q -> params -> Q -> res Q)
          (curve_fit : Q -> list Q -> list Q -> params -> params * params -> res params)
          (find_peaks : list Q -> Z -> Q -> res (list nat))
          (parabola : list Q -> list Q -> res (Q * Q))
          (cubic : list Q -> list Q -> Q -> res Q).
  Definition library_returns : Prop :=
    (forall t0 p t, nf (env t0 p t)) /\ (forall t0 ts ys p b, nf (curve_fit t0 ts ys p b)) /\
    (forall l dist prom, nf (find_peaks l dist prom)) /\ (forall ts ys, nf (parabola ts ys)) /\ (forall ts ys t, nf (cubic ts ys t)).
  Definition library_indexes : Prop :=
    (forall t0 p t, ni (env t0 p t)) /\ (forall t0 ts ys p b, ni (curve_fit t0 ts ys p b)) /\
    (forall l dist prom, ni (find_peaks l dist prom)) /\ (forall ts ys, ni (parabola ts ys)) /\ (forall ts ys t, ni (cubic ts ys t)).
End Library.
