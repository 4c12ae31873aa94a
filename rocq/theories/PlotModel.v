(** Model of the diagnostic plots, /repo/gw_eccentricity/eccDefinition.py 3419-4385.  Definitions only.
    A plot is what is handed to matplotlib: curves, vertical and horizontal lines, limits of the vertical axis.
    Not modelled: colours beyond the keyword arguments, texts, titles, legends, tick marks, figure sizes, the
    settings of plot_settings.py (only which styles exist), the option
    plot_orbit_averaged_omega_gw_between_extrema, and saving to files.  What was drawn before an exception inside one
    plot is dropped. *)
From Verif Require Import Base UtilsModel ExtremaModel RationalModel MeasureModel SegmentModel InitModel.
Open Scope string_scope.
Open Scope nat_scope.
Open Scope list_scope.

(** The vertical values of a curve.  Derivatives are known by their sign only, as in MeasureModel.v. *)
Inductive values (V : Type) := Numbers (l : list Q) | Eccs (l : list V) | Signs (positive : list bool).
Arguments Numbers {V} l. Arguments Eccs {V} l. Arguments Signs {V} positive.
Definition size {V} (y : values V) : nat := match y with Numbers l => length l | Eccs l => length l | Signs l => length l end.
(** What ax.plot, ax.axvline, ax.axhline and ax.set_ylim put on an axis. *)
Inductive artist (V : Type) :=
| Line (opts : list (string * string)) (x : list Q) (y : values V)
| VLine (x : Q) | HLine (y : Q) | Limits (lo hi : Q).
Arguments Line {V} opts x y. Arguments VLine {V} x. Arguments HLine {V} y. Arguments Limits {V} lo hi.
(** ax.plot(x, y, **opts); matplotlib raises ValueError for different lengths. *)
Definition line {V} (opts : list (string * string)) (x : list Q) (y : values V) : res (artist V) :=
  if length x =? size y then Ok (Line opts x y) else Err ValueError.

(** The object of the user: what the constructor left (InitModel.v), what a measurement left (MeasureModel.v) and the
    attributes only plots read.  None is an attribute that was never set. *)
Record plotted (V : Type) := {
  q_level : Z;                         (* self.debug_level *)
  q_object : object;
  q_state : state;
  q_checks : option (list V);          (* ecc_for_checks, None from the constructor on *)
  q_ratios : option (option (list Q * list Q)); (* orb_phase_diff_ratio_at_pericenters, _at_apocenters; None below level 1 *)
  q_tref : option (list Q);            (* tref_out *)
  q_ecc : option (list V);             (* eccentricity *)
  q_mean : option (list Q)             (* mean_anomaly *)
}.
Arguments q_level {V} _. Arguments q_object {V} _. Arguments q_state {V} _. Arguments q_checks {V} _. Arguments q_ratios {V} _.
Arguments q_tref {V} _. Arguments q_ecc {V} _. Arguments q_mean {V} _.
Definition q_config {V} (o : plotted V) : config := b_config (o_base (q_object o)).
Definition put_state {V} (s : state) (o : plotted V) : plotted V :=
  {| q_level := q_level o; q_object := q_object o; q_state := s; q_checks := q_checks o; q_ratios := q_ratios o;
     q_tref := q_tref o; q_ecc := q_ecc o; q_mean := q_mean o |}.
Definition put_checks {V} (e : list V) (o : plotted V) : plotted V :=
  {| q_level := q_level o; q_object := q_object o; q_state := q_state o; q_checks := Some e; q_ratios := q_ratios o;
     q_tref := q_tref o; q_ecc := q_ecc o; q_mean := q_mean o |}.
Definition put_ratios {V} (r : option (option (list Q * list Q))) (o : plotted V) : plotted V :=
  {| q_level := q_level o; q_object := q_object o; q_state := q_state o; q_checks := q_checks o; q_ratios := r;
     q_tref := q_tref o; q_ecc := q_ecc o; q_mean := q_mean o |}.

(** eccDefinition.py 2401-2403, t_for_checks; it is set together with tmin and tmax. *)
Definition check_times {V} (o : plotted V) : res (list Q) :=
  do w <- attr (s_window (q_state o));
  Ok (filter (fun t => Qle_bool (fst w) t && Qle_bool t (snd w)) (c_data_t (q_config o))).

(** eccDefinition.py 2737-2768, the second value returned by check_extrema_separation with always_return=True. *)
Definition phase_ratios (c : config) (loc : list nat) : res (list Q) :=
  do ph <- gather (c_phase c) loc;
  let d := qdiff (map (fun x => x / 2)%Q ph) in
  do r <- qdivs (tl d) (removelast d);
  Ok (0%Q :: r).

(** Limits of the vertical axis.  eccDefinition.py 3846-3849: the range and 5 percent of its upper end. *)
Definition padded {V} (l : list Q) : res (artist V) :=
  do lo <- qmin l; do hi <- qmax l;
  let pad := ((1 # 20) * hi)%Q in Ok (Limits (lo - pad)%Q (hi + pad)%Q).
(** eccDefinition.py 4193-4198: symmetric about 0. *)
Definition symmetric {V} (l : list Q) : res (artist V) :=
  do lo <- qmin l; do hi <- qmax l;
  let lim := Qmaxb hi (- lo) in let pad := ((1 # 20) * lim)%Q in Ok (Limits (- lim - pad)%Q (lim + pad)%Q).
(** eccDefinition.py 4029-4031: the range itself. *)
Definition tight {V} (l : list Q) : res (artist V) := do lo <- qmin l; do hi <- qmax l; Ok (Limits lo hi).

(** Colours by name; plot_settings.py gives the values. *)
Definition plain : list (string * string) := [("c", "default")].
Definition peri_dots : list (string * string) := [("c", "pericenter"); ("marker", "."); ("ls", "")].
Definition apo_dots : list (string * string) := [("c", "apocenter"); ("marker", "."); ("ls", "")].
Definition dot : list (string * string) := [("ls", ""); ("marker", ".")].
(** eccDefinition.py 3609-3612: the user's options, completed by the default colour. *)
Definition with_defaults (opts defaults : list (string * string)) : list (string * string) :=
  opts ++ filter (fun kv => negb (existsb (String.eqb (fst kv)) (map fst opts))) defaults.
(** A call f(own..., **opts): TypeError if a keyword is given twice. *)
Definition with_kwargs (own opts : list (string * string)) : res (list (string * string)) :=
  if existsb (fun kv => existsb (String.eqb (fst kv)) (map fst own)) opts then Err TypeError else Ok (own ++ opts).

Section Plots.
  Context {V : Type}.
  Variable ecc_of : Q -> Q -> V.
  Variable spline_val : list Q -> list Q -> nat -> Q -> Q.
  Variable pchip_val : list Q -> list Q -> Q -> Q.
  Variable slope_positive : list Q -> list V -> list bool.

  (** What a plot does: the object afterwards and the artists or the exception. *)
  Definition drawing := plotted V -> plotted V * res (list (artist V)).

  (** compute_eccentricity(self.t_for_checks) *)
  Definition ecc_at_checks (o : plotted V) : res (list V) :=
    do ts <- check_times o;
    do w <- attr (s_window (q_state o));
    do fp <- attr (fst (s_curves (q_state o))); do fa <- attr (snd (s_curves (q_state o)));
    compute_eccentricity ecc_of fp fa (fst w) (snd w) ts.
  (** eccDefinition.py 3613-3615 (and 2605-2607): computed once per object. *)
  Definition fill_checks (o : plotted V) : plotted V * res (list V) :=
    match q_checks o with
    | Some e => (o, Ok e)
    | None => match ecc_at_checks o with Ok e => (put_checks e o, Ok e) | Err x => (o, Err x) end
    end.
  (** The marks of a single reference time: eccDefinition.py 3619-3622. *)
  Definition reference_marks (vline : bool) (o : plotted V) (y : res (values V)) : res (list (artist V)) :=
    do tr <- attr (q_tref o);
    if (length tr =? 1) && vline then
      do t <- get tr 0; do y <- y; do m <- line dot tr y; Ok [VLine t; m]
    else Ok [].

  (** eccDefinition.py 3556-3631, plot_eccentricity. *)
  Definition plot_eccentricity (vline : bool) (opts : list (string * string)) : drawing := fun o =>
    let '(o1, e) := fill_checks o in
    (o1, do e <- e; do ts <- check_times o1;
         do l <- line (with_defaults opts plain) ts (Eccs e);
         do m <- reference_marks vline o1 (do y <- attr (q_ecc o1); Ok (Eccs y));
         Ok (l :: m)).

  (** eccDefinition.py 3633-3703, plot_decc_dt, with derivative_of_eccentricity (2587-2614). *)
  Definition fill_slopes (o : plotted V) : plotted V * res (list bool) :=
    match s_decc (q_state o) with
    | Some d => (o, Ok d)
    | None =>
        match (do ts <- check_times o; do w <- attr (s_window (q_state o)); do _ <- check_input_limits ts (fst w) (snd w); Ok ts) with
        | Err x => (o, Err x)
        | Ok ts =>
            let '(o1, e) := fill_checks o in
            match (do e <- e;
                   do _ <- fst (get_interpolant ts (map (fun _ => 0%Q) e) false "spline" (Some (c_general (q_config o))));
                   Ok (slope_positive ts e)) with
            | Ok d => (put_state (set_decc (Some d) (q_state o1)) o1, Ok d)
            | Err x => (o1, Err x)
            end
        end
    end.
  Definition plot_decc_dt (opts : list (string * string)) : drawing := fun o =>
    let '(o1, d) := fill_slopes o in
    (o1, do d <- d; do ts <- check_times o1;
         do l <- line (with_defaults opts plain) ts (Signs d); Ok [l; HLine 0%Q]).

  (** eccDefinition.py 3705-3777, plot_mean_anomaly. *)
  Definition plot_mean_anomaly (vline : bool) (opts : list (string * string)) : drawing := fun o =>
    (o, do ts <- check_times o;
        do w <- attr (s_window (q_state o)); do p <- attr (s_peri (q_state o));
        do tp <- gather (c_t (q_config o)) p;
        do m <- compute_mean_anomaly tp (fst w) (snd w) ts;
        do l <- line (with_defaults opts plain) ts (Numbers m);
        do k <- reference_marks vline o (do y <- attr (q_mean o); Ok (Numbers y));
        Ok (l :: k)).

  (** The samples of an array at the two kinds of extrema. *)
  Definition extrema_dots (o : plotted V) (y : list Q) : res (list (artist V)) :=
    let t := c_t (q_config o) in
    do p <- attr (s_peri (q_state o)); do tp <- gather t p; do yp <- gather y p; do lp <- line peri_dots tp (Numbers yp);
    do a <- attr (s_apo (q_state o)); do ta <- gather t a; do ya <- gather y a; do la <- line apo_dots ta (Numbers ya);
    Ok [lp; la].

  (** eccDefinition.py 3779-3877, plot_omega_gw. *)
  Definition plot_omega_gw (opts : list (string * string)) : drawing := fun o =>
    let c := q_config o in
    (o, do ts <- check_times o;
        do fp <- attr (fst (s_curves (q_state o))); do vp <- eval_curve fp ts;
        do kp <- with_kwargs [("c", "pericenter"); ("label", "omega_gw_pericenters")] opts;
        do lp <- line kp ts (Numbers vp);
        do fa <- attr (snd (s_curves (q_state o))); do va <- eval_curve fa ts;
        do ka <- with_kwargs [("c", "apocenter"); ("label", "omega_gw_apocenters")] opts;
        do la <- line ka ts (Numbers va);
        do l <- line (plain ++ [("label", "omega_gw")]) (c_t c) (Numbers (c_omega c));
        do d <- extrema_dots o (c_omega c);
        do lim <- padded (c_omega c);
        Ok ([lp; la; l] ++ d ++ [lim])%list).

  (** eccDefinition.py 3879-3981, plot_omega_gw_average; [all] is plot_omega_gw. *)
  Definition fill_average (o : plotted V) : plotted V * res (list Q * list Q) :=
    match s_average (q_state o) with
    | Some tv => (o, Ok tv)
    | None =>
        let '(_, (s1, r)) := get_omega_gw_average spline_val pchip_val (q_config o) None (q_state o) in
        match r with
        | Ok tv => (put_state (set_average (Some tv) s1) o, Ok tv)
        | Err x => (put_state s1 o, Err x)
        end
    end.
  Definition plot_omega_gw_average (all : bool) (opts : list (string * string)) : drawing := fun o =>
    let c := q_config o in
    let '(o1, tv) := fill_average o in
    (o1, do tv <- tv;
         do k <- with_kwargs (plain ++ [("label", "omega_gw_average")]) opts;
         do l <- line k (fst tv) (Numbers (snd tv));
         do w <- (if all then do w <- line [("c", "k"); ("alpha", "0.4"); ("lw", "0.5"); ("label", "omega")] (c_t c) (Numbers (c_omega c)); Ok [w]
                  else Ok []);
         do lim <- padded (c_omega c);
         Ok ([l] ++ w ++ [lim])%list).

  (** eccDefinition.py 3983-4039, plot_amp_gw; the options of the caller are not used. *)
  Definition plot_amp_gw (opts : list (string * string)) : drawing := fun o =>
    let amp := w_amp (b_wave (o_base (q_object o))) in
    (o, do l <- line (plain ++ [("label", "amp_gw")]) (c_t (q_config o)) (Numbers amp);
        do d <- extrema_dots o amp; do lim <- tight amp; Ok ([l] ++ d ++ [lim])%list).

  (** eccDefinition.py 4041-4139, plot_phase_diff_ratio_between_extrema; options not used.  Without stored ratios they are
      computed (always_return=True) and stored; its debug messages are not modelled: below level 1 there are none, and from
      level 1 on the ratios are stored. *)
  Definition fill_ratios (o : plotted V) : plotted V * res (list Q * list Q) :=
    match q_ratios o with
    | None => (o, Err AttributeError)
    | Some (Some r) => (o, Ok r)
    | Some None =>
        match (do p <- attr (s_peri (q_state o)); do rp <- phase_ratios (q_config o) p;
               do a <- attr (s_apo (q_state o)); do ra <- phase_ratios (q_config o) a; Ok (rp, ra)) with
        | Ok r => (put_ratios (Some (Some r)) o, Ok r)
        | Err x => (o, Err x)
        end
    end.
  Definition plot_phase_ratio (opts : list (string * string)) : drawing := fun o =>
    let t := c_t (q_config o) in
    let '(o1, r) := fill_ratios o in
    (o1, do p <- attr (s_peri (q_state o)); do tp <- gather t (tl p);
         do r <- r;
         do lp <- line [("c", "pericenter"); ("marker", "."); ("label", "Pericenter phase diff ratio")] (tl tp) (Numbers (tl (fst r)));
         do a <- attr (s_apo (q_state o)); do ta <- gather t (tl a);
         do la <- line [("c", "apocenter"); ("marker", "."); ("label", "Apocenter phase diff ratio")] (tl ta) (Numbers (tl (snd r)));
         Ok [lp; la]).

  (** eccDefinition.py 4141-4208 and 4210-4276, plot_residual_omega_gw and plot_residual_amp_gw; options not used. *)
  Definition plot_residual (y : residual -> list Q) : drawing := fun o =>
    (o, do r <- attr (b_residual (o_base (q_object o)));
        do l <- line plain (c_t (q_config o)) (Numbers (y r));
        do d <- extrema_dots o (y r); do lim <- symmetric (y r); Ok ([l] ++ d ++ [lim])%list).

  (** eccDefinition.py 4278-4385, plot_data_used_for_finding_extrema; options not used. *)
  Definition says_residual (m : string) : bool := match index 0 "Residual" m with Some _ => true | None => false end.
  Definition plot_data_used (vline : bool) (opts : list (string * string)) : drawing := fun o =>
    let y := o_data (q_object o) in
    (o, do l <- line plain (c_t (q_config o)) (Numbers y);
        do d <- extrema_dots o y;
        do lim <- (if says_residual (o_method (q_object o)) then symmetric y else padded y);
        do tl <- last_of (c_t (q_config o));
        do tr <- attr (q_tref o);
        do m <- (if (length tr =? 1) && vline then do t <- get tr 0; Ok [VLine t] else Ok []);
        Ok ([l] ++ d ++ [lim; VLine tl] ++ m)%list).

  Inductive panel := PEcc | PMean | POmega | PData | PDecc | PRatio | PAverage | PAmp | PResAmp | PResOmega.
  Definition draw (k : panel) (vline : bool) (opts : list (string * string)) : drawing :=
    match k with
    | PEcc => plot_eccentricity vline opts | PMean => plot_mean_anomaly vline opts
    | POmega => plot_omega_gw opts | PData => plot_data_used vline opts | PDecc => plot_decc_dt opts
    | PRatio => plot_phase_ratio opts | PAverage => plot_omega_gw_average true opts | PAmp => plot_amp_gw opts
    | PResAmp => plot_residual rs_amp | PResOmega => plot_residual rs_omega
    end.

  (** Figures and axes in the order of their creation; [k_axes] gives the figure of each axis, [k_art] what was drawn on
      which axis. *)
  Record canvas := { k_figs : nat; k_axes : list nat; k_art : list (nat * artist V) }.
  (** plt.subplots with [n] axes *)
  Definition subplots (n : nat) (k : canvas) : canvas :=
    {| k_figs := S (k_figs k); k_axes := k_axes k ++ repeat (k_figs k) n; k_art := k_art k |}.
  Definition put_art (ax : nat) (l : list (artist V)) (k : canvas) : canvas :=
    {| k_figs := k_figs k; k_axes := k_axes k; k_art := k_art k ++ map (pair ax) l |}.

  (** plot_settings.py 66-118: the styles that exist. *)
  Definition styles : list string := ["APS"; "APJ"; "Elsevier"; "Springer"; "Presentation"; "Notebook"].
  (** The arguments of a plot_* function. *)
  Record request := {
    rq_fig : option nat; rq_ax : option nat; rq_style : string; rq_fancy : bool; rq_vline : bool; rq_opts : list (string * string) }.
  (** What a plot_* function returns: a figure and an axis, or an axis. *)
  Inductive shown := Both (fig ax : nat) | Just (ax : nat).
  (** The frame shared by all plot_* functions, e.g. 3605-3608 and 3628-3631: a new figure if the figure or the axis is
      missing; the second test comes after ax was replaced by the new axis. *)
  Definition plot (k : panel) (rq : request) (o : plotted V) (cv : canvas) : plotted V * canvas * res shown :=
    let new := match rq_fig rq, rq_ax rq with Some _, Some _ => false | _, _ => true end in
    if (new || rq_fancy rq) && negb (existsb (String.eqb (rq_style rq)) styles) then (o, cv, Err KeyError)
    else
      let cv1 := if new then subplots 1 cv else cv in
      let ax := match rq_fig rq, rq_ax rq with Some _, Some a => a | _, _ => length (k_axes cv) end in
      let '(o1, r) := draw k (rq_vline rq) (rq_opts rq) o in
      match r with
      | Err e => (o1, cv1, Err e)
      | Ok l => (o1, put_art ax l cv1, Ok (match rq_fig rq with None => Both (k_figs cv) ax | Some _ => Just ax end))
      end.

  (** eccDefinition.py 3505-3518: the list of plots. *)
  Definition panels (keys : list string) (method : string) : list panel :=
    [PEcc; PMean; POmega; PData; PDecc; PRatio; PAverage] ++
    (if existsb (String.eqb "hlm_zeroecc") keys then
       (if String.eqb method "ResidualAmplitude" then [] else [PResAmp]) ++
       (if String.eqb method "ResidualFrequency" then [] else [PResOmega])
     else []).
  (** eccDefinition.py 3540-3548: the panels one by one; IndexError when the axes run out. *)
  Fixpoint draw_panels (ks : list panel) (axes : list nat) (o : plotted V) (cv : canvas) : plotted V * canvas * res unit :=
    match ks with
    | [] => (o, cv, Ok tt)
    | k :: ks' =>
        match axes with
        | [] => (o, cv, Err IndexError)
        | ax :: axes' =>
            let '(o1, r) := draw k true [] o in
            match r with
            | Err e => (o1, cv, Err e)
            | Ok l => draw_panels ks' axes' o1 (put_art ax l cv)
            end
        end
    end.
  (** The result of make_diagnostic_plots: the figure, its axes, the axes removed from it, those given a time label. *)
  Record sheet := { sh_fig : nat; sh_axes : list nat; sh_deleted : list nat; sh_labelled : list nat }.
  (** eccDefinition.py 3419-3554, make_diagnostic_plots; [nrows] and [ncols] are those of the user, if given.
      matplotlib raises ValueError for a grid without cells. *)
  Definition make_diagnostic_plots (style : option string) (twocol : bool) (nrows ncols : option nat) (o : plotted V) (cv : canvas)
    : plotted V * canvas * res sheet :=
    let ks := panels (b_dict_keys (o_base (q_object o))) (o_method (q_object o)) in
    let style := match style with Some s => s | None => if twocol then "APS" else "Notebook" end in
    if negb (existsb (String.eqb style) styles) then (o, cv, Err KeyError)
    else
      let rows := match nrows with Some n => n | None => if twocol then Nat.div2 (S (length ks)) else length ks end in
      let cols := match ncols with Some n => n | None => if twocol then 2 else 1 end in
      if (rows =? 0) || (cols =? 0) then (o, cv, Err ValueError)
      else
        let axes := seq (length (k_axes cv)) (rows * cols) in
        let '(o1, cv1, r) := draw_panels ks axes o (subplots (rows * cols) cv) in
        match r with
        | Err e => (o1, cv1, Err e)
        | Ok _ =>
            match (do a <- last_of axes;
                   do b <- (if twocol then do b <- zget axes (-2); Ok [b] else Ok []);
                   Ok (a :: b)) with
            | Err e => (o1, cv1, Err e)
            | Ok lab => (o1, cv1, Ok {| sh_fig := k_figs cv; sh_axes := axes; sh_deleted := skipn (length ks) axes; sh_labelled := lab |})
            end
        end.

  (** The object after measure_ecc() returned the result [r] with extrema found (eccDefinition.py 2383-2462): the attributes
      only plots read.  Defined for reference times; with reference frequencies the result does not contain tref_out. *)
  Definition after_measurement (s' : state) (r : result V) (o : plotted V) : plotted V :=
    let c := q_config o in
    let o1 := put_state s' o in
    {| q_level := q_level o; q_object := q_object o; q_state := s';
       q_checks := match q_checks o with Some e => Some e | None => match ecc_at_checks o1 with Ok e => Some e | Err _ => None end end;
       q_ratios := if (q_level o <? 1)%Z then Some None
                   else match s_peri s', s_apo s' with
                        | Some p, Some a => match phase_ratios c p, phase_ratios c a with Ok x, Ok y => Some (Some (x, y)) | _, _ => None end
                        | _, _ => None
                        end;
       q_tref := match r_tref_out r with Some x => Some (match x with Scalar a => [a] | Arr l => l end) | None => None end;
       q_ecc := Some (match r_eccentricity r with Scalar a => [a] | Arr l => l end);
       q_mean := Some (match r_mean_anomaly r with Scalar a => [a] | Arr l => l end) |}.
  (** The object as the constructor leaves it. *)
  Definition unmeasured (level : Z) (ob : object) (s : state) : plotted V :=
    {| q_level := level; q_object := ob; q_state := s; q_checks := None; q_ratios := None; q_tref := None; q_ecc := None; q_mean := None |}.
End Plots.
Arguments canvas : clear implicits.
