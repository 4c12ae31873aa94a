(** Proofs about the diagnostic plots. *)
From Coq Require Import Lia Lqa.
From Verif Require Import Base BaseLemmas UtilsModel UtilsSpec UtilsLemmas ExtremaModel ExtremaLemmas RationalModel
  MeasureModel MeasureSpec LevelLemmas AverageLemmas MeasureLemmas MeasureResults MeasureBounds SegmentModel InitModel PlotModel PlotSpec.
Open Scope string_scope.
Open Scope nat_scope.
Open Scope list_scope.

Section Caches.
  Context {V : Type}.
  Variables (ecc_of : Q -> Q -> V) (sv : list Q -> list Q -> nat -> Q -> Q) (pv : list Q -> list Q -> Q -> Q).
  Variable slope : list Q -> list V -> list bool.
  Notation draw := (draw ecc_of sv pv slope).
  Notation plot := (plot ecc_of sv pv slope).

  (** the values behind the caches *)
  Definition checks_of (o : plotted V) : res (list V) := match q_checks o with Some e => Ok e | None => ecc_at_checks ecc_of o end.
  Definition slopes_of (o : plotted V) : res (list bool) :=
    match s_decc (q_state o) with
    | Some d => Ok d
    | None =>
        do ts <- (do ts <- check_times o; do w <- attr (s_window (q_state o)); do _ <- check_input_limits ts (fst w) (snd w); Ok ts);
        do e <- checks_of o;
        do _ <- fst (get_interpolant ts (map (fun _ => 0%Q) e) false "spline" (Some (c_general (q_config o))));
        Ok (slope ts e)
    end.
  Definition mean_of (o : plotted V) : res (list Q * list Q) :=
    match s_average (q_state o) with
    | Some tv => Ok tv | None => snd (run (get_omega_gw_average sv pv (q_config o) None) (q_state o)) end.
  Definition ratios_of (o : plotted V) : res (list Q * list Q) :=
    match q_ratios o with
    | None => Err AttributeError
    | Some (Some r) => Ok r
    | Some None => do p <- attr (s_peri (q_state o)); do rp <- phase_ratios (q_config o) p;
                   do a <- attr (s_apo (q_state o)); do ra <- phase_ratios (q_config o) a; Ok (rp, ra)
    end.
  (** a later version of the object: only caches were filled, with the values they stand for *)
  Record later (o o' : plotted V) : Prop := {
    lt_level : q_level o' = q_level o; lt_object : q_object o' = q_object o;
    lt_tref : q_tref o' = q_tref o; lt_ecc : q_ecc o' = q_ecc o; lt_mean : q_mean o' = q_mean o;
    lt_degrees : s_degrees (q_state o') = s_degrees (q_state o);
    lt_peri : s_peri (q_state o') = s_peri (q_state o); lt_apo : s_apo (q_state o') = s_apo (q_state o);
    lt_window : s_window (q_state o') = s_window (q_state o); lt_curves : s_curves (q_state o') = s_curves (q_state o);
    lt_zero : s_zero (q_state o') = s_zero (q_state o);
    lt_average : s_average (q_state o') = s_average (q_state o) \/ (s_average (q_state o) = None /\ exists tv, s_average (q_state o') = Some tv);
    lt_decc : s_decc (q_state o') = s_decc (q_state o) \/ s_decc (q_state o) = None;
    lt_checks_of : checks_of o' = checks_of o; lt_slopes_of : slopes_of o' = slopes_of o;
    lt_mean_of : mean_of o' = mean_of o; lt_ratios_of : ratios_of o' = ratios_of o }.
  Lemma later_refl o : later o o.
  Proof. constructor; auto. Qed.
  Lemma later_trans o o1 o2 : later o o1 -> later o1 o2 -> later o o2.
  Proof.
    intros A B. constructor; try (etransitivity; [apply B|apply A]).
    - destruct (lt_average _ _ B) as [E|(E & tv & F)], (lt_average _ _ A) as [G|(G & tv' & I)]; [left; congruence|right; eauto|right; split; [congruence|eauto]|right; eauto].
      split; [exact G|]. exists tv'. now rewrite E.
    - destruct (lt_decc _ _ B) as [E|E], (lt_decc _ _ A) as [G|G]; auto; [left|right]; congruence.
  Qed.
  Lemma ecc_at_checks_put (f : plotted V -> plotted V) o : q_object (f o) = q_object o -> s_window (q_state (f o)) = s_window (q_state o) ->
    s_curves (q_state (f o)) = s_curves (q_state o) -> ecc_at_checks ecc_of (f o) = ecc_at_checks ecc_of o.
  Proof. intros A B C. unfold ecc_at_checks, check_times, q_config. now rewrite A, B, C. Qed.

  Lemma fill_checks_spec o : snd (fill_checks ecc_of o) = checks_of o /\ later o (fst (fill_checks ecc_of o)).
  Proof.
    unfold fill_checks, checks_of. destruct (q_checks o) as [e|] eqn:Q; [split; [reflexivity|apply later_refl]|].
    destruct (ecc_at_checks ecc_of o) as [e|x] eqn:E; [|split; [reflexivity|apply later_refl]].
    split; [reflexivity|]. cbn [fst]. constructor; auto; unfold slopes_of, checks_of; cbn [put_checks q_checks q_state]; rewrite ?Q, ?E; reflexivity.
  Qed.
  Lemma checks_of_put_state s o : s_window s = s_window (q_state o) -> s_curves s = s_curves (q_state o) -> checks_of (put_state s o) = checks_of o.
  Proof. intros A B. unfold checks_of. cbn [put_state q_checks]. destruct (q_checks o); [reflexivity|]. now apply (ecc_at_checks_put (put_state s)). Qed.
  Lemma fill_slopes_spec o : snd (fill_slopes ecc_of slope o) = slopes_of o /\ later o (fst (fill_slopes ecc_of slope o)).
  Proof.
    assert (So : s_decc (q_state o) = None -> slopes_of o = _) by (intros Q; unfold slopes_of; rewrite Q; reflexivity).
    unfold fill_slopes. destruct (s_decc (q_state o)) as [d|] eqn:Q; [unfold slopes_of; rewrite Q; split; [reflexivity|apply later_refl]|].
    specialize (So eq_refl). destruct (do ts <- check_times o; _) as [ts|x]; [|rewrite So; split; [reflexivity|apply later_refl]]. cbn [bind] in So.
    destruct (fill_checks_spec o) as [F L]. destruct (fill_checks ecc_of o) as [o1 e]. cbn [fst snd] in F, L. subst e.
    destruct (do e0 <- checks_of o; _) as [d|x]; [|rewrite So; split; [reflexivity|exact L]].
    rewrite So. split; [reflexivity|]. cbn [fst]. constructor; cbn [put_state q_level q_object q_tref q_ecc q_mean q_state set_decc s_degrees s_peri s_apo s_window s_curves s_zero s_average s_decc]; try apply L.
    - right. exact Q.
    - unfold slopes_of at 1. cbn. now rewrite So.
    - rewrite <- (lt_mean_of _ _ L). unfold mean_of. cbn [put_state q_state set_decc s_average q_config q_object]. destruct (s_average (q_state o1)); [reflexivity|].
      apply (average_of sv pv). reflexivity.
  Qed.
  Lemma fill_average_spec o : snd (fill_average sv pv o) = mean_of o /\ later o (fst (fill_average sv pv o)).
  Proof.
    unfold fill_average, mean_of at 1. destruct (s_average (q_state o)) as [tv|] eqn:Q; [split; [reflexivity|apply later_refl]|].
    assert (K := average_keeps sv pv (q_config o) None (q_state o)). assert (M : mean_of o = snd (run (get_omega_gw_average sv pv (q_config o) None) (q_state o))) by (unfold mean_of; now rewrite Q).
    unfold run in K, M |- *. destruct (get_omega_gw_average sv pv (q_config o) None (q_state o)) as [w [s1 r]]. cbn [fst snd] in *. subst s1.
    destruct r as [tv|x]; cbn [fst snd].
    - split; [reflexivity|]. constructor; cbn [put_state q_level q_object q_tref q_ecc q_mean q_state set_average s_degrees s_peri s_apo s_window s_curves s_zero s_average s_decc]; auto.
      all: first [ solve [right; eauto] | rewrite M; reflexivity | now apply checks_of_put_state | idtac ].
    - split; [reflexivity|]. destruct o. apply later_refl.
  Qed.
  Lemma fill_ratios_spec o : snd (fill_ratios o) = ratios_of o /\ later o (fst (fill_ratios o)).
  Proof.
    unfold fill_ratios, ratios_of at 1. destruct (q_ratios o) as [[r|]|] eqn:Q; [split; [reflexivity|apply later_refl]| |split; [reflexivity|apply later_refl]].
    destruct (do p <- attr (s_peri (q_state o)); _) as [r|x] eqn:E; [|split; [reflexivity|apply later_refl]].
    split; [reflexivity|]. cbn [fst]. constructor; auto. unfold ratios_of at 2. rewrite Q, E. reflexivity.
  Qed.

  (** any plot only fills caches *)
  Lemma draw_later k v opts o : later o (fst (draw k v opts o)).
  Proof.
    destruct k; cbn [PlotModel.draw]; try apply later_refl.
    - unfold plot_eccentricity. assert (H := proj2 (fill_checks_spec o)). destruct (fill_checks ecc_of o). exact H.
    - unfold plot_decc_dt. assert (H := proj2 (fill_slopes_spec o)). destruct (fill_slopes ecc_of slope o). exact H.
    - unfold plot_phase_ratio. assert (H := proj2 (fill_ratios_spec o)). destruct (fill_ratios o). exact H.
    - unfold plot_omega_gw_average. assert (H := proj2 (fill_average_spec o)). destruct (fill_average sv pv o). exact H.
  Qed.
  (** what a plot shows depends on the values behind the caches only *)
  Lemma check_times_later o o' : later o o' -> check_times o' = check_times o.
  Proof. intros L. unfold check_times, q_config. now rewrite (lt_window _ _ L), (lt_object _ _ L). Qed.
  Lemma marks_later o o' v y : later o o' -> reference_marks v o' y = reference_marks v o y.
  Proof. intros L. unfold reference_marks. now rewrite (lt_tref _ _ L). Qed.
  Lemma dots_later o o' y : later o o' -> extrema_dots o' y = extrema_dots o y.
  Proof. intros L. unfold extrema_dots, q_config. now rewrite (lt_peri _ _ L), (lt_apo _ _ L), (lt_object _ _ L). Qed.
  Lemma draw_same k v opts o o' : later o o' -> snd (draw k v opts o') = snd (draw k v opts o).
  Proof.
    intros L. assert (CF : q_config o' = q_config o) by (unfold q_config; now rewrite (lt_object _ _ L)).
    destruct k; cbn [PlotModel.draw].
    - unfold plot_eccentricity. destruct (fill_checks_spec o) as [F1 L1]. destruct (fill_checks_spec o') as [F2 L2].
      destruct (fill_checks ecc_of o) as [o1 e1], (fill_checks ecc_of o') as [o2 e2]. cbn [fst snd] in *. rewrite F2, (lt_checks_of _ _ L), <- F1.
      assert (L3 := later_trans _ _ _ L L2). rewrite (check_times_later _ _ L3), (check_times_later _ _ L1), (marks_later _ _ _ _ L3), (marks_later _ _ _ _ L1).
      now rewrite (lt_ecc _ _ L3), (lt_ecc _ _ L1).
    - unfold plot_mean_anomaly. cbn [snd]. now rewrite (check_times_later _ _ L), (marks_later _ _ _ _ L), (lt_mean _ _ L), (lt_window _ _ L), (lt_peri _ _ L), CF.
    - unfold plot_omega_gw. cbn [snd]. cbv zeta. now rewrite (check_times_later _ _ L), (lt_curves _ _ L), (dots_later _ _ _ L), CF.
    - unfold plot_data_used. cbn [snd]. cbv zeta. now rewrite (dots_later _ _ _ L), (lt_object _ _ L), (lt_tref _ _ L), CF.
    - unfold plot_decc_dt. destruct (fill_slopes_spec o) as [F1 L1]. destruct (fill_slopes_spec o') as [F2 L2].
      destruct (fill_slopes ecc_of slope o) as [o1 e1], (fill_slopes ecc_of slope o') as [o2 e2]. cbn [fst snd] in *. rewrite F2, (lt_slopes_of _ _ L), <- F1.
      assert (L3 := later_trans _ _ _ L L2). now rewrite (check_times_later _ _ L3), (check_times_later _ _ L1).
    - unfold plot_phase_ratio. destruct (fill_ratios_spec o) as [F1 L1]. destruct (fill_ratios_spec o') as [F2 L2].
      destruct (fill_ratios o) as [o1 e1], (fill_ratios o') as [o2 e2]. cbn [fst snd] in *. rewrite F2, (lt_ratios_of _ _ L), <- F1.
      now rewrite (lt_peri _ _ L), (lt_apo _ _ L), CF.
    - unfold plot_omega_gw_average. destruct (fill_average_spec o) as [F1 L1]. destruct (fill_average_spec o') as [F2 L2].
      destruct (fill_average sv pv o) as [o1 e1], (fill_average sv pv o') as [o2 e2]. cbn [fst snd] in *. now rewrite F2, (lt_mean_of _ _ L), <- F1, CF.
    - unfold plot_amp_gw. cbn [snd]. cbv zeta. now rewrite (dots_later _ _ _ L), (lt_object _ _ L), CF.
    - unfold plot_residual. cbn [snd]. rewrite (lt_object _ _ L), CF. destruct (attr _); [|reflexivity]. cbn [bind]. now rewrite (dots_later _ _ _ L).
    - unfold plot_residual. cbn [snd]. rewrite (lt_object _ _ L), CF. destruct (attr _); [|reflexivity]. cbn [bind]. now rewrite (dots_later _ _ _ L).
  Qed.
  Lemma plot_later k rq o cv : later o (fst (fst (plot k rq o cv))).
  Proof.
    unfold PlotModel.plot. destruct (_ && _); [apply later_refl|]. cbv zeta. assert (H := draw_later k (rq_vline rq) (rq_opts rq) o).
    destruct (draw k _ _ o) as [o1 [l|e]]; exact H.
  Qed.
  Lemma all_later l : forall o cv, later o (fst (plot_all ecc_of sv pv slope l o cv)).
  Proof.
    induction l as [|[k rq] l IH]; intros o cv; cbn [plot_all]; [apply later_refl|]. assert (H := plot_later k rq o cv).
    destruct (plot k rq o cv) as [[o1 cv1] r]. cbn [fst] in H. eapply later_trans; [exact H|apply IH].
  Qed.

  (** ** where things are drawn *)
  Lemma on_put ax l (cv : canvas V) b : on b (put_art ax l cv) = if ax =? b then on b cv ++ l else on b cv.
  Proof.
    unfold on, put_art. cbn [k_art]. rewrite filter_app, map_app.
    assert (E : map snd (filter (fun p => fst p =? b) (map (pair ax) l)) = if ax =? b then l else []).
    { destruct (Nat.eqb_spec ax b) as [X|X]; induction l as [|x l IH]; cbn; auto; destruct (Nat.eqb_spec ax b); try contradiction; cbn; congruence. }
    rewrite E. destruct (ax =? b); [reflexivity|apply app_nil_r].
  Qed.
  Lemma on_subplots n (cv : canvas V) b : on b (subplots n cv) = on b cv.
  Proof. reflexivity. Qed.
  Lemma on_new (cv : canvas V) b : sound cv -> length (k_axes cv) <= b -> on b cv = [].
  Proof.
    intros [S _] H. unfold on. destruct (filter _ _) as [|[x a] r] eqn:E; [reflexivity|]. exfalso.
    assert (I : In (x, a) (filter (fun p => fst p =? b) (k_art cv))) by (rewrite E; now left).
    apply filter_In in I. destruct I as [I J]. cbn in J. apply Nat.eqb_eq in J. apply S in I. lia.
  Qed.
  Lemma plot_given k rq o cv o' cv' sh f a : plot k rq o cv = (o', cv', Ok sh) -> rq_fig rq = Some f -> rq_ax rq = Some a ->
    sh = Just a /\ k_figs cv' = k_figs cv /\ k_axes cv' = k_axes cv /\
    exists l, snd (draw k (rq_vline rq) (rq_opts rq) o) = Ok l /\ on a cv' = on a cv ++ l /\ forall b, b <> a -> on b cv' = on b cv.
  Proof.
    unfold PlotModel.plot. intros H F A. rewrite F, A in H. destruct (_ && _); [discriminate|]. cbv zeta in H.
    destruct (draw k _ _ o) as [o1 [l|e]]; [|discriminate]. injection H as <- <- <-. split; [reflexivity|]. split; [reflexivity|]. split; [reflexivity|].
    exists l. split; [reflexivity|]. split; [now rewrite on_put, Nat.eqb_refl|]. intros b N. rewrite on_put. destruct (Nat.eqb_spec a b); congruence.
  Qed.
  Lemma plot_new k rq o cv o' cv' sh : sound cv -> plot k rq o cv = (o', cv', Ok sh) -> (rq_fig rq = None \/ rq_ax rq = None) ->
    let ax := length (k_axes cv) in let fig := k_figs cv in
    sh = (match rq_fig rq with None => Both fig ax | Some _ => Just ax end) /\
    k_figs cv' = S fig /\ k_axes cv' = k_axes cv ++ [fig] /\
    exists l, snd (draw k (rq_vline rq) (rq_opts rq) o) = Ok l /\ on ax cv' = l /\ forall b, b <> ax -> on b cv' = on b cv.
  Proof.
    cbv zeta. unfold PlotModel.plot. intros Sn H N. set (nw := match rq_fig rq, rq_ax rq with Some _, Some _ => false | _, _ => true end) in H.
    assert (nw = true). { unfold nw. destruct N as [->| ->]; [reflexivity|]. now destruct (rq_fig rq). } rewrite H0 in H.
    destruct (_ && _); [discriminate|]. cbv zeta in H.
    assert (AX : match rq_fig rq, rq_ax rq with Some _, Some a => a | _, _ => length (k_axes cv) end = length (k_axes cv)).
    { destruct N as [->| ->]; [reflexivity|]. now destruct (rq_fig rq). }
    rewrite AX in H. destruct (draw k _ _ o) as [o1 [l|e]]; [|discriminate]. injection H as <- <- <-. split; [reflexivity|]. split; [reflexivity|]. split; [reflexivity|].
    exists l. split; [reflexivity|]. split; [rewrite on_put, Nat.eqb_refl, on_subplots, on_new by auto; reflexivity|].
    intros b Nb. rewrite on_put. destruct (Nat.eqb_spec (length (k_axes cv)) b); [congruence|reflexivity].
  Qed.

  (** ** the sheet of all panels *)
  Lemma draw_panels_ok ks : forall axes o0 o cv o' cv', later o0 o -> NoDup axes -> draw_panels ecc_of sv pv slope ks axes o cv = (o', cv', Ok tt) ->
    length ks <= length axes /\ k_axes cv' = k_axes cv /\ k_figs cv' = k_figs cv /\
    (forall i k ax, nth_error ks i = Some k -> nth_error axes i = Some ax -> exists l, snd (draw k true [] o0) = Ok l /\ on ax cv' = on ax cv ++ l) /\
    (forall b, ~ In b (firstn (length ks) axes) -> on b cv' = on b cv).
  Proof.
    induction ks as [|k ks IH]; intros axes o0 o cv o' cv' L ND H; cbn [draw_panels] in H.
    - injection H as <- <-. split; [cbn; lia|]. repeat split; auto. intros i k ax E. destruct i; discriminate.
    - destruct axes as [|ax axes]; [discriminate|]. inversion ND as [|? ? N1 ND']. subst.
      assert (D := draw_later k true [] o). assert (D2 := draw_same k true [] _ _ L). destruct (draw k true [] o) as [o1 [l|e]] eqn:E; [|discriminate]. cbn [fst snd] in D, D2.
      apply (IH axes o0) in H; [|exact (later_trans _ _ _ L D)|exact ND']. destruct H as (A1 & A2 & A3 & A4 & A5).
      assert (Notin : ~ In ax (firstn (length ks) axes)). { intros I. apply N1. rewrite <- (firstn_skipn (length ks) axes). apply in_or_app. now left. }
      split; [cbn; lia|]. split; [exact A2|]. split; [exact A3|]. split.
      + intros i k' ax' Hk Ha. destruct i as [|i]; cbn in Hk, Ha.
        * injection Hk as <-. injection Ha as <-. exists l. split; [now symmetry|]. rewrite (A5 _ Notin), on_put, Nat.eqb_refl. reflexivity.
        * destruct (A4 i k' ax' Hk Ha) as (l' & B1 & B2). exists l'. split; [exact B1|]. rewrite B2, on_put.
          destruct (Nat.eqb_spec ax ax') as [X|X]; [|reflexivity]. subst ax'. exfalso. apply N1. now apply nth_error_In in Ha.
      + intros b Nb. cbn [length firstn] in Nb. rewrite A5 by (intros I; apply Nb; now right). rewrite on_put.
        destruct (Nat.eqb_spec ax b) as [X|X]; [|reflexivity]. exfalso. apply Nb. now left.
  Qed.
  Notation sheet_of := (make_diagnostic_plots ecc_of sv pv slope).
  Notation rows_of tw nr ks := (match nr with Some n => n | None => if (tw : bool) then Nat.div2 (S (length ks)) else length ks end).
  Notation cols_of tw nc := (match nc with Some n => n | None => if (tw : bool) then 2 else 1 end).
  Lemma sheet_ok st tw nr nc o cv o' cv' sh : sound cv -> sheet_of st tw nr nc o cv = (o', cv', Ok sh) ->
    let ks := panels (b_dict_keys (o_base (q_object o))) (o_method (q_object o)) in
    let n := rows_of tw nr ks * cols_of tw nc in
    sh_fig sh = k_figs cv /\ sh_axes sh = seq (length (k_axes cv)) n /\ length ks <= n /\
    k_figs cv' = S (k_figs cv) /\ k_axes cv' = k_axes cv ++ repeat (k_figs cv) n /\
    sh_deleted sh = skipn (length ks) (sh_axes sh) /\
    (forall i k, nth_error ks i = Some k -> exists l, snd (draw k true [] o) = Ok l /\ on (length (k_axes cv) + i) cv' = l) /\
    (forall b, ~ In b (firstn (length ks) (sh_axes sh)) -> on b cv' = on b cv).
  Proof.
    intros Sn. unfold make_diagnostic_plots. set (ks := panels _ _). cbv zeta. destruct (negb _); [discriminate|].
    destruct (_ || _) eqn:Z; [discriminate|]. set (n := rows_of tw nr ks * cols_of tw nc).
    destruct (draw_panels _ _ _ _ _ _ _ _) as [[o1 cv1] r] eqn:E. destruct r as [[]|x]; [|discriminate].
    destruct (do a <- last_of _; _) as [lab|x]; [|discriminate]. intros H. injection H as <- <- <-. cbn [sh_fig sh_axes sh_deleted].
    apply (draw_panels_ok ks _ o) in E; [|apply later_refl|apply seq_NoDup]. rewrite seq_length in E. destruct E as (A1 & A2 & A3 & A4 & A5).
    split; [reflexivity|]. split; [reflexivity|]. split; [exact A1|]. split; [exact A3|]. split; [exact A2|]. split; [reflexivity|]. split; [|exact A5].
    intros i k Hk. assert (Li : i < n). { assert (X := nth_error_Some ks i). rewrite Hk in X. assert (i < length ks) by (apply X; discriminate). lia. }
    destruct (A4 i k (length (k_axes cv) + i) Hk) as (l & B1 & B2).
    { rewrite (nth_error_nth' _ 0) by (now rewrite seq_length). now rewrite seq_nth. }
    exists l. split; [exact B1|]. rewrite B2, on_subplots, on_new by (auto; lia). reflexivity.
  Qed.
  Lemma draw_panels_short ks : forall axes o cv, length axes < length ks -> exists e, snd (draw_panels ecc_of sv pv slope ks axes o cv) = Err e.
  Proof.
    induction ks as [|k ks IH]; intros axes o cv H; [cbn in H; lia|]. destruct axes as [|ax axes]; [cbn; eauto|]. cbn [draw_panels].
    destruct (draw k true [] o) as [o1 [l|e]]; [|cbn; eauto]. apply IH. cbn in H. lia.
  Qed.
  Lemma sheet_too_small st tw nr nc o cv : 
    let ks := panels (b_dict_keys (o_base (q_object o))) (o_method (q_object o)) in
    rows_of tw nr ks * cols_of tw nc < length ks -> exists e, snd (sheet_of st tw nr nc o cv) = Err e.
  Proof.
    cbv zeta. intros H. unfold make_diagnostic_plots. set (ks := panels _ _) in *. cbv zeta. destruct (negb _); [cbn; eauto|].
    destruct (_ || _); [cbn; eauto|].
    destruct (draw_panels_short ks (seq (length (k_axes cv)) (rows_of tw nr ks * cols_of tw nc)) o (subplots (rows_of tw nr ks * cols_of tw nc) cv)) as [e E]; [now rewrite seq_length|].
    destruct (draw_panels _ _ _ _ _ _ _ _) as [[o1 cv1] r]. cbn [snd] in E. subst r. cbn. eauto.
  Qed.
  Lemma last_seq a n : last_of (seq a (S n)) = Ok (a + n).
  Proof. replace (seq a (S n)) with (seq a n ++ [a + n]) by (now rewrite seq_S). apply last_of_app. Qed.
  Lemma before_last_seq a n : zget (seq a (S (S n))) (-2) = Ok (a + n).
  Proof.
    unfold zget. rewrite seq_length. destruct (Z.leb_spec 0 (-2)); [lia|]. destruct (Z.leb_spec 0 (Z.of_nat (S (S n)) + -2)); [|lia].
    replace (Z.to_nat (Z.of_nat (S (S n)) + -2)) with n by lia. unfold get. rewrite (nth_error_nth' _ 0) by (rewrite seq_length; lia). rewrite seq_nth by lia. reflexivity.
  Qed.
  Lemma labels_seq a n (tw : bool) lab : (do x <- last_of (seq a n); do y <- (if tw then do y <- zget (seq a n) (-2); Ok [y] else Ok []); Ok (x :: y)) = Ok lab ->
    lab = (a + (n - 1)) :: (if tw then [a + (n - 2)] else []).
  Proof.
    destruct n as [|[|n]]; [cbn; discriminate| |].
    - cbn. destruct tw; cbn; [discriminate|]. intros H. apply Ok_inj in H. subst. repeat f_equal. lia.
    - rewrite last_seq. cbn [bind]. destruct tw; [rewrite before_last_seq|]; cbn [bind]; intros H; apply Ok_inj in H; subst; repeat f_equal; lia.
  Qed.
  Lemma sheet_labels st tw nr nc o cv o' cv' sh : sheet_of st tw nr nc o cv = (o', cv', Ok sh) ->
    let n := length (sh_axes sh) in let a := length (k_axes cv) in
    sh_labelled sh = (a + (n - 1)) :: (if (tw : bool) then [a + (n - 2)] else []).
  Proof.
    unfold make_diagnostic_plots. set (ks := panels _ _). cbv zeta. destruct (negb _); [discriminate|].
    destruct (_ || _) eqn:Z; [discriminate|]. generalize (rows_of tw nr ks * cols_of tw nc). intros n.
    destruct (draw_panels _ _ _ _ _ _ _ _) as [[o1 cv1] r]. destruct r as [[]|x]; [|discriminate].
    destruct (do x <- last_of (seq (length (k_axes cv)) n); _) as [lab|x] eqn:E; [|discriminate]. apply labels_seq in E.
    intros H. injection H as <- <- <-. cbn [sh_labelled sh_axes]. rewrite seq_length. exact E.
  Qed.
End Caches.
