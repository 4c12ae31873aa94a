(** Specification vocabulary for the numerical kernels: polynomials and their derivative.
    The interpolation part reads off what was handed to scipy and replays call histories. *)
From Verif Require Import Base UtilsModel.
Open Scope Q_scope.

(** Value at x of the polynomial with coefficients c (constant term first). *)
Fixpoint poly (c : list Q) (x : Q) : Q :=
  match c with [] => 0 | a :: r => a + x * poly r x end.
(** Formal derivative: the k-th coefficient of the derivative is (k+1) c_{k+1}. *)
Fixpoint dcoefs (k : Z) (c : list Q) : list Q :=
  match c with [] => [] | a :: r => (inject_Z k * a) :: dcoefs (k + 1) r end.
Definition dpoly (c : list Q) (x : Q) : Q := poly (dcoefs 1 (tl c)) x.
(** n samples on the uniform grid starting at t0 with step dt. *)
Definition grid (t0 dt : Q) (n : nat) : list Q :=
  map (fun i => t0 + inject_Z (Z.of_nat i) * dt) (seq 0 n).
Definition samples (f : Q -> Q) (t0 dt : Q) (n : nat) : list Q := map f (grid t0 dt n).
(** strictly increasing list of times *)
Definition increasing (t : list Q) : Prop :=
  forall i j a b, (i < j)%nat -> nth_error t i = Some a -> nth_error t j = Some b -> a < b.

Open Scope nat_scope.
(** Extrapolation mode and degree handed to scipy's spline. *)
Definition ext_of (i : interpolant) : option Z :=
  match i with SplineI _ _ _ e => Some e | PchipI _ _ _ => None end.
Definition deg_of (i : interpolant) : option nat :=
  match i with SplineI _ _ k _ => Some k | PchipI _ _ _ => None end.

(** A history of calls sharing one dictionary. *)
Record icall := { ic_x : list Q; ic_y : list Q; ic_allow : bool; ic_kind : string }.
Definition run_calls (d : spline_kwargs) (h : list icall) : spline_kwargs :=
  fold_left (fun d c =>
    match snd (get_interpolant (ic_x c) (ic_y c) (ic_allow c) (ic_kind c) (Some d)) with
    | Some d' => d' | None => d end) h d.

