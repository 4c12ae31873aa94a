(** Small objects for the examples of Props_Plot.v. *)
From Verif Require Import Base UtilsModel ExtremaModel RationalModel MeasureModel MeasureSpec LevelLemmas AverageLemmas SegmentModel DataModel DataTotal Toy InitModel InitSpec InitToy PlotModel PlotSpec PlotKeys.
Open Scope string_scope.
Open Scope nat_scope.
Open Scope list_scope.

Definition pt_ecc (wp wa : Q) : Q := Qred ((wp - wa) / (wp + wa)).
Definition pt_slope (ts e : list Q) : list bool := map (fun _ => false) ts.
Definition pt_object (c : config) : object :=
  {| o_method := "Amplitude";
     o_base := {| b_dict_keys := ["t"; "amplm"; "phaselm"; "omegalm"];
                  b_wave := {| w_t := c_t c; w_amp := c_omega c; w_phase := c_phase c; w_omega := c_omega c |};
                  b_t_merger := 0; b_amp_merger := 1; b_extrema_kwargs := []; b_fits_kwargs := Leaf LNone; b_config := c; b_degrees := None;
                  b_residual := Some {| rs_t := c_t c; rs_omega_zeroecc := c_omega c; rs_amp := map (fun x => x - 2)%Q (c_omega c); rs_omega := map (fun x => 2 - x)%Q (c_omega c) |}; b_refine := false |};
     o_data := c_omega c; o_fits := [] |}.
Definition pt_config := toy (TimeRef [3%Q]) true "mean_of_extrema_interpolants" false.
Definition pt_measure level c := measure_ecc pt_ecc 0%Q (fun e => Qlt_bool e 0) toy_find lin lin3 (fun _ _ _ => Err LinAlgError) pt_slope level c.
Definition pt_plotted (m : state * res (result Q)) (o : plotted Q) : plotted Q :=
  match snd m with Ok r => after_measurement pt_ecc (fst m) r o | Err _ => o end.
Definition pt_new (c : config) : plotted Q := unmeasured 0 (pt_object c) (fresh None).
Definition pt_one : plotted Q := pt_plotted (snd (pt_measure 0 pt_config (fresh None))) (pt_new pt_config).
Definition pt_draw := draw pt_ecc lin lin3 pt_slope.
Definition pt_plot := plot pt_ecc lin lin3 pt_slope.
Definition pt_blank : canvas Q := {| k_figs := 2; k_axes := [0; 1; 1]; k_art := [(1, VLine 0%Q)] |}.
Lemma pt_sound : sound pt_blank.
Proof. split; [intros ax a [H|[]]; injection H as <- <-; cbn; repeat constructor|intros f H; cbn in *; intuition (subst; repeat constructor)]. Qed.
Definition pt_ask (fig ax : option nat) (opts : list (string * string)) : request :=
  {| rq_fig := fig; rq_ax := ax; rq_style := "Notebook"; rq_fancy := false; rq_vline := true; rq_opts := opts |}.
(** the figure and axis, the number of figures, how much is on each of the first axes *)
Definition pt_seen (r : plotted Q * canvas Q * res shown) :=
  (snd r, k_figs (snd (fst r)), k_axes (snd (fst r)), map (fun ax => length (on ax (snd (fst r)))) (seq 0 5)).
Definition red (a : artist Q) : artist Q :=
  match a with
  | Line k x (Numbers y) => Line k (map Qred x) (Numbers (map Qred y))
  | Line k x (Eccs y) => Line k (map Qred x) (Eccs (map Qred y))
  | Line k x (Signs y) => Line k (map Qred x) (Signs y)
  | VLine x => VLine (Qred x) | HLine y => HLine (Qred y) | Limits a b => Limits (Qred a) (Qred b)
  end.
Definition pt_arts (r : plotted Q * res (list (artist Q))) : res (list (artist Q)) := match snd r with Ok l => Ok (map red l) | Err e => Err e end.
Definition is_fine {A} (r : res A) : bool := match r with Ok _ => true | Err _ => false end.
(** the object of the second toy, measured once and twice *)
Definition pt_two (n : nat) : plotted Q :=
  Nat.iter n (fun o => pt_plotted (snd (toy2_measure (q_state o))) o) (pt_new toy2).
Definition line_at (t : Q) (l : res (list (artist Q))) : option Q :=
  match l with
  | Ok (Line _ x (Eccs y) :: _) => option_map snd (find (fun p => Qeq_bool (fst p) t) (combine x y))
  | _ => None
  end.
(** objects made by the constructor: without and with a circular counterpart *)
Definition pt_lib : library ex_c Q :=
  {| lib_abs := lib_abs in_lib; lib_phase := lib_phase in_lib; lib_polar := lib_polar in_lib; lib_rotate := lib_rotate in_lib; lib_sqrt := lib_sqrt in_lib;
     lib_secular := lib_secular in_lib; lib_spline := lib_spline in_lib; lib_pchip := lib_pchip in_lib; lib_rational := lib_rational in_lib;
     lib_slope := pt_slope; lib_ecc := lib_ecc in_lib; lib_zero := lib_zero in_lib; lib_negative := lib_negative in_lib;
     lib_peaks := lib_peaks in_lib; lib_fits := lib_fits in_lib; lib_filter := lib_filter in_lib |}.
Definition pt_build (m : string) (d : sdict (dval ex_c)) := build pt_lib m (in_args (Some (RScalar 6)) None false) 0 (in_world d (Some in_spline)).
Definition pt_built (m : string) (d : sdict (dval ex_c)) : plotted Q :=
  match snd (snd (pt_build m d)) with
  | Ok ob => let o := unmeasured 0 ob (fresh (b_degrees (o_base ob))) in pt_plotted (snd (measure_object pt_lib 0 ob)) o
  | Err _ => pt_new pt_config
  end.
Definition pt_sheet (tw : bool) (nr nc : option nat) (o : plotted Q) := make_diagnostic_plots pt_ecc lin lin3 pt_slope None tw nr nc o pt_blank.
Definition pt_cells (r : plotted Q * canvas Q * res sheet) :=
  match snd r with
  | Ok sh => Ok (sh_fig sh, sh_axes sh, sh_deleted sh, sh_labelled sh, map (fun ax => length (on ax (snd (fst r)))) (sh_axes sh))
  | Err e => Err e
  end.
