(** The statements of Props_Plot.v, from the lemmas about plots. *)
From Coq Require Import Lia.
From Verif Require Import Base BaseLemmas UtilsModel UtilsSpec ExtremaModel RationalModel MeasureModel MeasureSpec LevelLemmas AverageLemmas MeasureLemmas MeasureResults SegmentModel DataModel InitModel InitSpec PlotModel PlotSpec PlotLemmas PlotShows PlotKeys.
Open Scope string_scope.
Open Scope nat_scope.
Open Scope list_scope.

Section Claims.
  Context {V : Type}.
  Variables (ecc_of : Q -> Q -> V) (sv : list Q -> list Q -> nat -> Q -> Q) (pv : list Q -> list Q -> Q -> Q).
  Variable slope : list Q -> list V -> list bool.
  Lemma axis_alone k rq o cv o' cv' sh a : sound cv -> plot ecc_of sv pv slope k rq o cv = (o', cv', Ok sh) -> rq_fig rq = None -> rq_ax rq = Some a ->
    nth_error (k_axes cv) a <> None -> on a cv' = on a cv /\ exists fig ax, sh = Both fig ax /\ nth_error (k_axes cv) ax = None /\ ~ In fig (k_axes cv).
  Proof.
    intros S H F A B. destruct (plot_new _ _ _ _ _ _ _ _ _ _ _ S H (or_introl F)) as (-> & _ & _ & l & _ & _ & X). rewrite F.
    split; [apply X; intros ->; apply B; now apply nth_error_None|]. do 2 eexists. split; [reflexivity|]. split; [now apply nth_error_None|].
    intros I. destruct S as [_ S]. apply S in I. lia.
  Qed.
  Lemma figure_alone k rq o cv o' cv' sh f : sound cv -> plot ecc_of sv pv slope k rq o cv = (o', cv', Ok sh) -> rq_fig rq = Some f -> rq_ax rq = None -> f < k_figs cv ->
    (forall ax, nth_error (k_axes cv') ax = Some f -> on ax cv' = on ax cv) /\
    exists ax g, sh = Just ax /\ nth_error (k_axes cv) ax = None /\ nth_error (k_axes cv') ax = Some g /\ g <> f.
  Proof.
    intros S H F A B. destruct (plot_new _ _ _ _ _ _ _ _ _ _ _ S H (or_intror A)) as (-> & _ & AX & l & _ & _ & X). rewrite F.
    assert (N : nth_error (k_axes cv') (length (k_axes cv)) = Some (k_figs cv)) by (rewrite AX, nth_error_app2, Nat.sub_diag by lia; reflexivity).
    split.
    - intros ax E. apply X. intros ->. rewrite N in E. injection E as E. lia.
    - do 2 eexists. split; [reflexivity|]. split; [now apply nth_error_None|]. split; [exact N|lia].
  Qed.
  Lemma in_order ps o cv k v opts : snd (draw ecc_of sv pv slope k v opts (fst (plot_all ecc_of sv pv slope ps o cv))) = snd (draw ecc_of sv pv slope k v opts o).
  Proof. apply draw_same, all_later. Qed.
  Lemma attributes_stay ps o cv : let o' := fst (plot_all ecc_of sv pv slope ps o cv) in
    q_tref o' = q_tref o /\ q_ecc o' = q_ecc o /\ q_mean o' = q_mean o /\ q_object o' = q_object o /\
    s_peri (q_state o') = s_peri (q_state o) /\ s_apo (q_state o') = s_apo (q_state o) /\ s_window (q_state o') = s_window (q_state o).
  Proof. cbv zeta. destruct (all_later ecc_of sv pv slope ps o cv). auto 10. Qed.
  Lemma sheet_seven {C} (L : library C V) m a p (w w' : world C) l ob st tw nr nc o cv o' cv' sh :
    build L m a p w = (w', (l, Ok ob)) -> q_object o = ob -> sound cv -> make_diagnostic_plots ecc_of sv pv slope st tw nr nc o cv = (o', cv', Ok sh) ->
    let ks := [PEcc; PMean; POmega; PData; PDecc; PRatio; PAverage] in
    let rows := match nr with Some n => n | None => if (tw : bool) then 4 else 7 end in
    let cols := match nc with Some n => n | None => if (tw : bool) then 2 else 1 end in
    sh_fig sh = k_figs cv /\ sh_axes sh = seq (length (k_axes cv)) (rows * cols) /\ 7 <= rows * cols /\
    k_axes cv' = k_axes cv ++ repeat (sh_fig sh) (rows * cols) /\ sh_deleted sh = skipn 7 (sh_axes sh) /\
    (forall i k, nth_error ks i = Some k -> exists ax arts, nth_error (sh_axes sh) i = Some ax /\ snd (draw ecc_of sv pv slope k true [] o) = Ok arts /\ on ax cv' = arts) /\
    (forall b, ~ In b (firstn 7 (sh_axes sh)) -> on b cv' = on b cv).
  Proof.
    intros B O S H. apply built_panels in B. subst ob. destruct (sheet_ok _ _ _ _ _ _ _ _ _ _ _ _ _ S H) as (A1 & A2 & A3 & _ & A5 & A6 & A7 & A8).
    rewrite B in *. cbv zeta in *. change (length seven) with 7 in *. split; [exact A1|]. split; [exact A2|]. split; [exact A3|]. split; [now rewrite A1|]. split; [exact A6|]. split; [|exact A8].
    intros i k E. destruct (A7 i k E) as (arts & D & On). exists (length (k_axes cv) + i), arts. split; [|auto]. rewrite A2.
    assert (i < 7) by (change 7 with (length seven); apply nth_error_Some; change (nth_error seven i = Some k) in E; rewrite E; discriminate).
    set (n := _ * _) in *. rewrite (nth_error_nth' _ 0) by (rewrite seq_length; lia). now rewrite seq_nth by lia.
  Qed.
  Lemma small_seven {C} (L : library C V) m a p (w w' : world C) l ob st tw nr nc o cv :
    build L m a p w = (w', (l, Ok ob)) -> q_object o = ob ->
    match nr with Some n => n | None => if (tw : bool) then 4 else 7 end * match nc with Some n => n | None => if (tw : bool) then 2 else 1 end < 7 ->
    exists e, snd (make_diagnostic_plots ecc_of sv pv slope st tw nr nc o cv) = Err e.
  Proof.
    intros B O H. apply built_panels in B. subst ob. apply sheet_too_small. rewrite B. exact H.
  Qed.
  Lemma labels_seven {C} (L : library C V) m a p (w w' : world C) l ob st o cv o' cv' sh :
    build L m a p w = (w', (l, Ok ob)) -> q_object o = ob -> sound cv -> make_diagnostic_plots ecc_of sv pv slope st true None None o cv = (o', cv', Ok sh) ->
    exists a0, sh_axes sh = seq a0 8 /\ sh_deleted sh = [a0 + 7] /\ sh_labelled sh = [a0 + 7; a0 + 6].
  Proof.
    intros B O S H. destruct (sheet_seven L m a p w w' l ob st true None None o cv o' cv' sh B O S H) as (_ & A2 & _ & _ & A5 & _).
    apply sheet_labels in H. rewrite A2, seq_length in H. cbv zeta in *. exists (length (k_axes cv)). split; [exact A2|]. split; [rewrite A5, A2; cbn; f_equal; lia|exact H].
  Qed.
End Claims.
Lemma ratios_shown V (ecc_of : Q -> Q -> V) level ob s s' r opts o1 arts : plot_phase_ratio opts (after_measurement ecc_of s' r (unmeasured level ob s)) = (o1, Ok arts) ->
  exists p a kp ka xp yp xa ya, s_peri s' = Some p /\ s_apo s' = Some a /\
    arts = [Line kp xp (Numbers yp); Line ka xa (Numbers ya)] /\
    ratio_curve (b_config (o_base ob)) p xp yp /\ ratio_curve (b_config (o_base ob)) a xa ya.
Proof. apply (shows_ratio ecc_of (fun _ _ _ _ => 0%Q) (fun _ _ _ => 0%Q) (fun _ _ => [])). Qed.
