(** Properties of the diagnostic plots (C93 to C97). *)
From Verif Require Import Base BaseLemmas UtilsModel UtilsSpec ExtremaModel RationalModel MeasureModel MeasureSpec LevelLemmas MeasureLemmas MeasureResults SegmentModel DataModel InitModel InitSpec InitToy Toy PlotModel PlotSpec PlotLemmas PlotShows PlotMore PlotKeys PlotToy PlotClaims.
Open Scope string_scope.
Open Scope nat_scope.
Open Scope list_scope.

(** C93.  Given a figure and an axis, a plot is drawn on that axis, after what is on it, and on no other; no figure or axis is made, and the axis is returned. *)
Theorem C93_given : forall V (ecc_of : Q -> Q -> V) sv pv slope k rq o cv o' cv' sh f a,
  plot ecc_of sv pv slope k rq o cv = (o', cv', Ok sh) -> rq_fig rq = Some f -> rq_ax rq = Some a ->
  sh = Just a /\ k_figs cv' = k_figs cv /\ k_axes cv' = k_axes cv /\
  exists l, snd (draw ecc_of sv pv slope k (rq_vline rq) (rq_opts rq) o) = Ok l /\ on a cv' = on a cv ++ l /\ forall b, b <> a -> on b cv' = on b cv.
Proof. exact @plot_given. Qed.
Print Assumptions C93_given.
Example C93_given_ex : pt_seen (pt_plot PEcc (pt_ask (Some 1) (Some 2) []) pt_one pt_blank) = (Ok (Just 2), 2, [0; 1; 1], [0; 1; 3; 0; 0]).
Proof. vm_compute. reflexivity. Qed.

(** C93.  Without a figure or without an axis a new figure with one axis is made and drawn on; both are returned exactly if no figure was given. *)
Theorem C93_new : forall V (ecc_of : Q -> Q -> V) sv pv slope k rq o cv o' cv' sh, sound cv ->
  plot ecc_of sv pv slope k rq o cv = (o', cv', Ok sh) -> rq_fig rq = None \/ rq_ax rq = None ->
  let ax := length (k_axes cv) in let fig := k_figs cv in
  sh = (match rq_fig rq with None => Both fig ax | Some _ => Just ax end) /\
  k_figs cv' = S fig /\ k_axes cv' = k_axes cv ++ [fig] /\
  exists l, snd (draw ecc_of sv pv slope k (rq_vline rq) (rq_opts rq) o) = Ok l /\ on ax cv' = l /\ forall b, b <> ax -> on b cv' = on b cv.
Proof. exact @plot_new. Qed.
Print Assumptions C93_new.
Example C93_new_ex : sound pt_blank /\ pt_seen (pt_plot PEcc (pt_ask None None []) pt_one pt_blank) = (Ok (Both 2 3), 3, [0; 1; 1; 2], [0; 1; 0; 3; 0]).
Proof. split; [exact pt_sound|vm_compute; reflexivity]. Qed.

(** C93 (finding).  An axis given without its figure stays as it was; the plot is in a new figure. *)
Theorem C93_axis_alone : forall V (ecc_of : Q -> Q -> V) sv pv slope k rq o cv o' cv' sh a, sound cv ->
  plot ecc_of sv pv slope k rq o cv = (o', cv', Ok sh) -> rq_fig rq = None -> rq_ax rq = Some a -> nth_error (k_axes cv) a <> None ->
  on a cv' = on a cv /\ exists fig ax, sh = Both fig ax /\ nth_error (k_axes cv) ax = None /\ ~ In fig (k_axes cv).
Proof. exact @axis_alone. Qed.
Print Assumptions C93_axis_alone.
Example C93_axis_alone_ex : pt_seen (pt_plot PEcc (pt_ask None (Some 2) []) pt_one pt_blank) = (Ok (Both 2 3), 3, [0; 1; 1; 2], [0; 1; 0; 3; 0]).
Proof. vm_compute. reflexivity. Qed.

(** C93 (finding).  A figure given without an axis stays as it was; only the axis of the new figure is returned. *)
Theorem C93_figure_alone : forall V (ecc_of : Q -> Q -> V) sv pv slope k rq o cv o' cv' sh f, sound cv ->
  plot ecc_of sv pv slope k rq o cv = (o', cv', Ok sh) -> rq_fig rq = Some f -> rq_ax rq = None -> f < k_figs cv ->
  (forall ax, nth_error (k_axes cv') ax = Some f -> on ax cv' = on ax cv) /\
  exists ax g, sh = Just ax /\ nth_error (k_axes cv) ax = None /\ nth_error (k_axes cv') ax = Some g /\ g <> f.
Proof. exact @figure_alone. Qed.
Print Assumptions C93_figure_alone.
Example C93_figure_alone_ex : pt_seen (pt_plot PEcc (pt_ask (Some 1) None []) pt_one pt_blank) = (Ok (Just 3), 3, [0; 1; 1; 2], [0; 1; 0; 3; 0]).
Proof. vm_compute. reflexivity. Qed.

(** C94.  The sheet of an object made by any of the six constructors has seven panels, always the same, in this order, one per axis of a new figure; surplus axes are
    removed; each panel shows what the single plot shows; nothing else is drawn on. *)
Theorem C94_sheet : forall V (ecc_of : Q -> Q -> V) sv pv slope C (L : library C V) m a p w w' l ob st tw nr nc o cv o' cv' sh,
  build L m a p w = (w', (l, Ok ob)) -> q_object o = ob -> sound cv -> make_diagnostic_plots ecc_of sv pv slope st tw nr nc o cv = (o', cv', Ok sh) ->
  let ks := [PEcc; PMean; POmega; PData; PDecc; PRatio; PAverage] in
  let rows := match nr with Some n => n | None => if (tw : bool) then 4 else 7 end in
  let cols := match nc with Some n => n | None => if (tw : bool) then 2 else 1 end in
  sh_fig sh = k_figs cv /\ sh_axes sh = seq (length (k_axes cv)) (rows * cols) /\ 7 <= rows * cols /\
  k_axes cv' = k_axes cv ++ repeat (sh_fig sh) (rows * cols) /\ sh_deleted sh = skipn 7 (sh_axes sh) /\
  (forall i k, nth_error ks i = Some k ->
     exists ax arts, nth_error (sh_axes sh) i = Some ax /\ snd (draw ecc_of sv pv slope k true [] o) = Ok arts /\ on ax cv' = arts) /\
  (forall b, ~ In b (firstn 7 (sh_axes sh)) -> on b cv' = on b cv).
Proof. exact @sheet_seven. Qed.
Print Assumptions C94_sheet.
(** The data of a circular waveform is given here, and no residual is shown. *)
Example C94_sheet_ex : is_fine (snd (snd (pt_build "Amplitude" in_zero))) = true /\
  pt_cells (pt_sheet false None None (pt_built "Amplitude" in_zero)) = Ok (2, [3; 4; 5; 6; 7; 8; 9], [], [9], [3; 3; 6; 6; 2; 2; 3]).
Proof. vm_compute. auto. Qed.

(** C94 (finding).  The data an object keeps never has the key "hlm_zeroecc" (nor "hlm"), for which the code asks before it shows residuals and before it checks
    that the circular waveform is long enough. *)
Theorem C94_keys : forall C V (L : library C V) m a p w w' l ob k, build L m a p w = (w', (l, Ok ob)) -> In k (b_dict_keys (o_base ob)) ->
  In k ["t"; "t_zeroecc"; "amplm"; "amplm_zeroecc"; "phaselm"; "phaselm_zeroecc"; "omegalm"; "omegalm_zeroecc"].
Proof. exact @built_keys. Qed.
Print Assumptions C94_keys.
Example C94_keys_ex : match snd (snd (pt_build "Amplitude" in_zero)) with Ok ob => b_dict_keys (o_base ob) | Err _ => [] end =
  ["t"; "t_zeroecc"; "amplm"; "amplm_zeroecc"; "phaselm"; "phaselm_zeroecc"; "omegalm"; "omegalm_zeroecc"].
Proof. vm_compute. reflexivity. Qed.

(** C94.  With fewer than seven cells the sheet is refused. *)
Theorem C94_too_small : forall V (ecc_of : Q -> Q -> V) sv pv slope C (L : library C V) m a p w w' l ob st tw nr nc o cv,
  build L m a p w = (w', (l, Ok ob)) -> q_object o = ob ->
  match nr with Some n => n | None => if (tw : bool) then 4 else 7 end * match nc with Some n => n | None => if (tw : bool) then 2 else 1 end < 7 ->
  exists e, snd (make_diagnostic_plots ecc_of sv pv slope st tw nr nc o cv) = Err e.
Proof. exact @small_seven. Qed.
Print Assumptions C94_too_small.
Example C94_too_small_ex : pt_cells (pt_sheet true (Some 2) None (pt_built "Amplitude" in_plain)) = Err IndexError.
Proof. vm_compute. reflexivity. Qed.

(** C94 (finding).  In the default sheet for two columns the time label of the second column is on the cell that is removed: the last one left in it has none. *)
Theorem C94_labels : forall V (ecc_of : Q -> Q -> V) sv pv slope C (L : library C V) m a p w w' l ob st o cv o' cv' sh,
  build L m a p w = (w', (l, Ok ob)) -> q_object o = ob -> sound cv -> make_diagnostic_plots ecc_of sv pv slope st true None None o cv = (o', cv', Ok sh) ->
  exists a0, sh_axes sh = seq a0 8 /\ sh_deleted sh = [a0 + 7] /\ sh_labelled sh = [a0 + 7; a0 + 6].
Proof. exact @labels_seven. Qed.
Print Assumptions C94_labels.
Example C94_labels_ex : pt_cells (pt_sheet true None None (pt_built "Amplitude" in_zero)) =
  Ok (2, [3; 4; 5; 6; 7; 8; 9; 10], [10], [10; 9], [3; 3; 6; 6; 2; 2; 3; 0]).
Proof. vm_compute. reflexivity. Qed.

(** C95.  After a first measurement at reference times the eccentricity plot is a curve over exactly the times of the data between the first and the last time
    at which both extrema curves exist; where it passes a reference time it has the value returned for it; a single reference time is marked. *)
Theorem C95_eccentricity : forall V (ecc_of : Q -> Q -> V) vzero vneg find sv pv rfit slope level ob s s' r tr,
  let c := b_config (o_base ob) in
  snd (measure_ecc ecc_of vzero vneg find sv pv rfit slope level c s) = (s', Ok r) -> s_zero s' = Some false -> c_ref c = TimeRef tr -> forall vline opts,
  exists lo hi out k x y rest o1, s_window s' = Some (lo, hi) /\ r_tref_out r = Some out /\
    plot_eccentricity ecc_of vline opts (after_measurement ecc_of s' r (unmeasured level ob s)) = (o1, Ok (Line k x (Eccs y) :: rest)) /\
    keeps_exactly (within lo hi) (c_data_t c) x /\ agrees x y (entries out) (entries (r_eccentricity r)) /\
    marked vline (entries out) (Eccs (entries (r_eccentricity r))) rest.
Proof. exact @shows_ecc. Qed.
Print Assumptions C95_eccentricity.
Example C95_eccentricity_ex : pt_arts (pt_draw PEcc true [] pt_one) =
  Ok [Line [("c", "default")] (map inject_Z [1; 2; 3; 4; 5; 6; 7; 8; 9; 10; 11]%Z)
        (Eccs [5 # 26; 5 # 27; 5 # 28; 5 # 29; 1 # 6; 5 # 31; 5 # 32; 5 # 33; 5 # 34; 1 # 7; 5 # 36]%Q);
      VLine 3%Q; Line [("ls", ""); ("marker", ".")] [3%Q] (Eccs [5 # 28]%Q)].
Proof. vm_compute. reflexivity. Qed.

(** C95.  The same for the mean anomaly. *)
Theorem C95_mean_anomaly : forall V (ecc_of : Q -> Q -> V) vzero vneg find sv pv rfit slope level ob s s' r tr,
  let c := b_config (o_base ob) in
  snd (measure_ecc ecc_of vzero vneg find sv pv rfit slope level c s) = (s', Ok r) -> s_zero s' = Some false -> c_ref c = TimeRef tr -> forall vline opts,
  let o := after_measurement ecc_of s' r (unmeasured level ob s) in
  exists lo hi out k x y rest, s_window s' = Some (lo, hi) /\ r_tref_out r = Some out /\
    plot_mean_anomaly vline opts o = (o, Ok (Line k x (Numbers y) :: rest)) /\
    keeps_exactly (within lo hi) (c_data_t c) x /\ agrees x y (entries out) (entries (r_mean_anomaly r)) /\
    marked vline (entries out) (Numbers (entries (r_mean_anomaly r))) rest.
Proof. exact @shows_mean. Qed.
Print Assumptions C95_mean_anomaly.
Example C95_mean_anomaly_ex : match pt_arts (pt_draw PMean true [] pt_one) with Ok [Line _ x (Numbers y); VLine t; Line _ [u] (Numbers [v])] => Some (length x, length y, t, u, Qeq_bool v np_pi) | _ => None end =
  Some (11, 11, 3%Q, 3%Q, true).
Proof. vm_compute. reflexivity. Qed.

(** C95.  The plot of phase ratios shows, for pericenters and for apocenters, one point for the third and each later one. *)
Theorem C95_ratios : forall V (ecc_of : Q -> Q -> V) level ob s s' r opts o1 arts,
  plot_phase_ratio opts (after_measurement ecc_of s' r (unmeasured level ob s)) = (o1, Ok arts) ->
  exists p a kp ka xp yp xa ya, s_peri s' = Some p /\ s_apo s' = Some a /\
    arts = [Line kp xp (Numbers yp); Line ka xa (Numbers ya)] /\
    ratio_curve (b_config (o_base ob)) p xp yp /\ ratio_curve (b_config (o_base ob)) a xa ya.
Proof. exact ratios_shown. Qed.
Print Assumptions C95_ratios.
Example C95_ratios_ex : match pt_arts (pt_draw PRatio true [] pt_one) with Ok [Line _ xp (Numbers (v :: _)); Line _ xa _] => Some (xp, xa, v) | _ => None end =
  Some (map inject_Z [4; 6; 8; 10; 12]%Z, map inject_Z [5; 7; 9; 11]%Z, 22529205440154859 # 22247730463444203)%Q.
Proof. vm_compute. reflexivity. Qed.

(** C95.  The plots of the data used for finding extrema, of the amplitude and of the residuals show that data over all times, with dots exactly at the pericenters and at
    the apocenters found.  The first also marks the last time and a single reference time. *)
Theorem C95_data : forall V (ecc_of : Q -> Q -> V) sv pv slope k vline opts o o1 arts,
  draw ecc_of sv pv slope k vline opts o = (o1, Ok arts) -> In k [PData; PAmp; PResAmp; PResOmega] ->
  exists y kd dots lo hi rest, panel_data k o y /\ extrema_marked o y dots /\
    arts = Line kd (c_t (q_config o)) (Numbers y) :: dots ++ Limits lo hi :: rest /\
    match k with
    | PData => exists tl, last_is (c_t (q_config o)) tl /\
                 match q_tref o with Some [t] => rest = VLine tl :: (if vline then [VLine t] else []) | _ => rest = [VLine tl] end
    | _ => rest = [] end.
Proof. exact @shows_data. Qed.
Print Assumptions C95_data.
Example C95_data_ex : map (fun k => match pt_arts (pt_draw k true [] pt_one) with Ok (Line _ _ (Numbers y) :: Line _ tp (Numbers yp) :: Line _ ta (Numbers ya) :: _) => Some (length y, tp, firstn 2 yp, firstn 2 ya) | _ => None end)
    [PData; PResOmega] =
  [Some (13%nat, map inject_Z [0; 2; 4; 6; 8; 10; 12]%Z, [3; 16 # 5], [21 # 10; 23 # 10]); Some (13%nat, map inject_Z [0; 2; 4; 6; 8; 10; 12]%Z, [-1; -6 # 5], [-1 # 10; -3 # 10])]%Q.
Proof. vm_compute. reflexivity. Qed.

(** C95.  The plot of the frequency shows the two extrema curves over the times of C95_eccentricity, the frequency over all times, and dots exactly at the extrema; the
    frequency lies within the limits if it has a value that is not negative. *)
Theorem C95_frequency : forall V (ecc_of : Q -> Q -> V) sv pv slope vline opts o o1 arts,
  draw ecc_of sv pv slope POmega vline opts o = (o1, Ok arts) ->
  exists lo hi fp fa ts vp va kp ka kd dots l h, s_window (q_state o) = Some (lo, hi) /\ s_curves (q_state o) = (Some fp, Some fa) /\
    keeps_exactly (within lo hi) (c_data_t (q_config o)) ts /\
    Forall2 (fun t v => fp t = Ok v) ts vp /\ Forall2 (fun t v => fa t = Ok v) ts va /\
    In ("c", "pericenter") kp /\ In ("c", "apocenter") ka /\ (forall kv, In kv opts -> In kv kp /\ In kv ka) /\
    extrema_marked o (c_omega (q_config o)) dots /\
    arts = Line kp ts (Numbers vp) :: Line ka ts (Numbers va) :: Line kd (c_t (q_config o)) (Numbers (c_omega (q_config o))) :: dots ++ [Limits l h] /\
    ((exists v, In v (c_omega (q_config o)) /\ (0 <= v)%Q) -> forall v, In v (c_omega (q_config o)) -> (l <= v <= h)%Q).
Proof. exact @shows_frequency. Qed.
Print Assumptions C95_frequency.
Example C95_frequency_ex : match pt_arts (pt_draw POmega true [("lw", "3")] pt_one) with Ok (Line kp _ (Numbers vp) :: Line ka _ (Numbers va) :: _) => Some (kp, firstn 2 vp, firstn 2 va) | _ => None end = Some ([("c", "pericenter"); ("label", "omega_gw_pericenters"); ("lw", "3")], [31 # 10; 16 # 5], [21 # 10; 11 # 5])%Q.
Proof. vm_compute. reflexivity. Qed.

(** C95.  The plot of the average shows the average stored in the object, or the one of the default method; its least and greatest values over 2 pi are what
    get_fref_bounds() returns. *)
Theorem C95_average : forall V (ecc_of : Q -> Q -> V) sv pv slope vline opts o o1 arts,
  draw ecc_of sv pv slope PAverage vline opts o = (o1, Ok arts) ->
  exists k x y kd l h, (forall kv, In kv opts -> In kv k) /\
    arts = [Line k x (Numbers y); Line kd (c_t (q_config o)) (Numbers (c_omega (q_config o))); Limits l h] /\
    (s_average (q_state o) = Some (x, y) \/
     s_average (q_state o) = None /\ snd (snd (get_omega_gw_average sv pv (q_config o) None (q_state o))) = Ok (x, y)) /\
    (forall level lo hi, snd (snd (get_fref_bounds sv pv level (q_config o) None (q_state o))) = Ok (lo, hi) -> min_max_over_2pi y lo hi) /\
    ((exists v, In v (c_omega (q_config o)) /\ (0 <= v)%Q) -> forall v, In v (c_omega (q_config o)) -> (l <= v <= h)%Q).
Proof. exact @shows_average. Qed.
Print Assumptions C95_average.
Example C95_average_ex : match pt_arts (pt_draw PAverage true [] pt_one) with Ok [Line _ x (Numbers y); Line _ t _; Limits l h] => Some (firstn 2 x, firstn 2 y, length t, l, h) | _ => None end = Some ([1; 2]%Q, [13 # 5; 27 # 10]%Q, 13%nat, 189 # 100, 441 # 100)%Q /\
  is_fine (snd (snd (get_fref_bounds lin lin3 0 pt_config None (q_state pt_one)))) = true.
Proof. vm_compute. auto. Qed.

(** C95.  After a first measurement the plot of the slope has the times of the plot of the eccentricity, and the slopes of the curve shown there; a line marks zero. *)
Theorem C95_slope : forall V (ecc_of : Q -> Q -> V) vzero vneg find sv pv rfit slope level ob s s' r opts vline opts',
  snd (measure_ecc ecc_of vzero vneg find sv pv rfit slope level (b_config (o_base ob)) s) = (s', Ok r) -> s_zero s' = Some false -> s_decc s = None ->
  (forall x e, length (slope x e) = length x) ->
  let o := after_measurement ecc_of s' r (unmeasured level ob s) in
  forall o1 k x y rest, plot_eccentricity ecc_of vline opts' o = (o1, Ok (Line k x (Eccs y) :: rest)) ->
  exists k', plot_decc_dt ecc_of slope opts o = (o, Ok [Line k' x (Signs (slope x y)); HLine 0%Q]).
Proof. exact @shows_slope. Qed.
Print Assumptions C95_slope.
Example C95_slope_ex : match pt_arts (pt_draw PDecc true [] pt_one) with Ok [Line _ x (Signs d); HLine z] => Some (length x, length d, z) | _ => None end = Some (11, 11, 0%Q).
Proof. vm_compute. reflexivity. Qed.

(** C95.  The plots of the data, the amplitude and the residuals set limits of the vertical axis, and everything drawn lies within them.  For the data of a
    method without residuals this needs one value that is not negative. *)
Theorem C95_limits : forall V (ecc_of : Q -> Q -> V) sv pv slope k vline opts o o1 arts,
  draw ecc_of sv pv slope k vline opts o = (o1, Ok arts) -> In k [PData; PAmp; PResAmp; PResOmega] ->
  (k = PData -> ~ In (o_method (q_object o)) ["ResidualAmplitude"; "ResidualFrequency"] -> exists v, In v (o_data (q_object o)) /\ (0 <= v)%Q) ->
  (exists lo hi, In (Limits lo hi) arts) /\ holds_all arts.
Proof. exact @limits_claim. Qed.
Print Assumptions C95_limits.
Example C95_limits_ex : flat_map (fun k => match pt_arts (pt_draw k true [] pt_one) with Ok l => filter (fun a => match a with Limits _ _ => true | _ => false end) l | Err _ => [] end)
    [PData; PAmp; PResAmp; PResOmega] =
  [Limits (189 # 100) (441 # 100); Limits (21 # 10) (21 # 5); Limits (-(231 # 100)) (231 # 100); Limits (-(231 # 100)) (231 # 100)]%Q.
Proof. vm_compute. reflexivity. Qed.

(** C95 (finding).  After a second measurement with rational fits, which changes the eccentricity at the reference time from 1/2 to 3/5, the curve still shows 1/2. *)
Theorem C95_stale_refuted :
  map (fun n => (line_at 5 (snd (pt_draw PEcc true [] (pt_two n))), q_ecc (pt_two n))) [1; 2] =
  [(Some (1 # 2), Some [1 # 2]); (Some (1 # 2), Some [3 # 5])]%Q.
Proof. vm_compute. reflexivity. Qed.
Print Assumptions C95_stale_refuted.

(** C96.  In the plots of the eccentricity, its slope and the mean anomaly the options of the caller all reach the curve; only the colour is added, and only if missing. *)
Theorem C96_used : forall V (ecc_of : Q -> Q -> V) sv pv slope k vline opts o o1 arts,
  draw ecc_of sv pv slope k vline opts o = (o1, Ok arts) -> In k [PEcc; PMean; PDecc] ->
  exists ks x y rest, arts = Line ks x y :: rest /\ (forall kv, In kv opts -> In kv ks) /\ In "c" (map fst ks) /\ (In "c" (map fst opts) -> ks = opts).
Proof. exact @options_used. Qed.
Print Assumptions C96_used.
Example C96_used_ex : map (fun opts => match pt_arts (pt_draw PEcc true opts pt_one) with Ok (Line ks _ _ :: _) => ks | _ => [] end)
    [[("lw", "3")]; [("c", "red"); ("lw", "3")]] = [[("lw", "3"); ("c", "default")]; [("c", "red"); ("lw", "3")]].
Proof. vm_compute. reflexivity. Qed.

(** C96 (finding).  The plots of the frequency and of its average refuse a colour or a label, although they take options. *)
Theorem C96_refused : forall V (ecc_of : Q -> Q -> V) sv pv slope k vline opts o kw o1 arts,
  In k [POmega; PAverage] -> In kw ["c"; "label"] -> In kw (map fst opts) -> draw ecc_of sv pv slope k vline opts o <> (o1, Ok arts).
Proof. exact @options_refused. Qed.
Print Assumptions C96_refused.
Example C96_refused_ex : map (fun opts => map (fun k => is_fine (pt_arts (pt_draw k true opts pt_one))) [POmega; PAverage]) [[("lw", "3")]; [("c", "red")]] =
  [[true; true]; [false; false]].
Proof. vm_compute. reflexivity. Qed.

(** C96 (finding).  The other plots take options and ignore them. *)
Theorem C96_ignored : forall V (ecc_of : Q -> Q -> V) sv pv slope k vline opts o, In k [PData; PRatio; PAmp; PResAmp; PResOmega] ->
  draw ecc_of sv pv slope k vline opts o = draw ecc_of sv pv slope k vline [] o.
Proof. exact @options_ignored. Qed.
Print Assumptions C96_ignored.
Example C96_ignored_ex : pt_arts (pt_draw PAmp true [("c", "red")] pt_one) = pt_arts (pt_draw PAmp true [] pt_one) /\ is_fine (pt_arts (pt_draw PAmp true [] pt_one)) = true.
Proof. vm_compute. auto. Qed.

(** C97.  What a plot shows, or the exception it raises, does not depend on which plots were made before it. *)
Theorem C97_order : forall V (ecc_of : Q -> Q -> V) sv pv slope ps o cv k vline opts,
  snd (draw ecc_of sv pv slope k vline opts (fst (plot_all ecc_of sv pv slope ps o cv))) = snd (draw ecc_of sv pv slope k vline opts o).
Proof. exact @in_order. Qed.
Print Assumptions C97_order.
(** C97.  Plots leave the results, the extrema and the window of the object as they are. *)
Theorem C97_results : forall V (ecc_of : Q -> Q -> V) sv pv slope ps o cv, let o' := fst (plot_all ecc_of sv pv slope ps o cv) in
  q_tref o' = q_tref o /\ q_ecc o' = q_ecc o /\ q_mean o' = q_mean o /\ q_object o' = q_object o /\
  s_peri (q_state o') = s_peri (q_state o) /\ s_apo (q_state o') = s_apo (q_state o) /\ s_window (q_state o') = s_window (q_state o).
Proof. exact @attributes_stay. Qed.
Print Assumptions C97_results.
(** C97.  After plots get_fref_bounds() with its default method replies as it would have without them. *)
Theorem C97_bounds : forall V (ecc_of : Q -> Q -> V) sv pv slope level ps o cv,
  snd (snd (get_fref_bounds sv pv level (q_config o) None (q_state (fst (plot_all ecc_of sv pv slope ps o cv))))) =
  snd (snd (get_fref_bounds sv pv level (q_config o) None (q_state o))).
Proof. exact @plots_bounds. Qed.
Print Assumptions C97_bounds.
(** C97.  A measurement after plots returns, or raises, what it would have without them. *)
Theorem C97_measure : forall V (ecc_of : Q -> Q -> V) vzero vneg find sv pv rfit slope level ob s s' r ps cv,
  let again := measure_ecc ecc_of vzero vneg find sv pv rfit slope level (b_config (o_base ob)) in
  snd (again s) = (s', Ok r) -> s_zero s' = Some false ->
  let o := after_measurement ecc_of s' r (unmeasured level ob s) in
  snd (snd (again (q_state (fst (plot_all ecc_of sv pv slope ps o cv))))) = snd (snd (again s')).
Proof. exact @plots_measure. Qed.
Print Assumptions C97_measure.
Definition C97_after := fst (plot_all pt_ecc lin lin3 pt_slope (map (fun k => (k, pt_ask None None [])) [PAverage; PRatio; PEcc]) pt_one pt_blank).
Example C97_ex : s_average (q_state pt_one) = None /\ s_average (q_state C97_after) <> None /\ q_ratios pt_one = Some None /\ q_ratios C97_after <> Some None /\
  is_ok (snd (snd (pt_measure 0 pt_config (q_state C97_after)))) = true /\ s_zero (q_state pt_one) = Some false.
Proof. vm_compute. repeat split; discriminate. Qed.
(** C97 (finding).  get_fref_bounds with another averaging method replies differently after a plot of the average. *)
Theorem C97_bounds_refuted : let ask o := bounds_in [RBounds (snd (snd (get_fref_bounds lin lin3 0 pt_config (Some "orbit_averaged_omega_gw") (q_state o))))] in
  is_ok (snd (snd (get_fref_bounds lin lin3 0 pt_config (Some "orbit_averaged_omega_gw") (q_state pt_one)))) = true /\ ask C97_after <> ask pt_one.
Proof. vm_compute. split; [reflexivity|discriminate]. Qed.
Print Assumptions C97_bounds_refuted.
