(** What the plots of data, frequency, average and slope show. *)
From Coq Require Import Lia Lqa.
From Verif Require Import Base BaseLemmas UtilsModel UtilsSpec UtilsLemmas ExtremaModel ExtremaLemmas RationalModel
  MeasureModel MeasureSpec LevelLemmas AverageLemmas MeasureLemmas MeasureResults MeasureBounds SegmentModel InitModel PlotModel PlotSpec PlotLemmas PlotShows.
Open Scope string_scope.
Open Scope nat_scope.
Open Scope list_scope.

Ltac nextb H := apply bind_ok in H; let x := fresh "v" in let E := fresh "E" in destruct H as (x & E & H).
Section More.
  Context {V : Type}.
  Variables (ecc_of : Q -> Q -> V) (sv : list Q -> list Q -> nat -> Q -> Q) (pv : list Q -> list Q -> Q -> Q).
  Variable slope : list Q -> list V -> list bool.

  Lemma attr_ok {A} (x : option A) v : attr x = Ok v -> x = Some v.
  Proof. destruct x; cbn; intros H; [now apply Ok_inj in H; subst|discriminate]. Qed.
  Lemma dots_marked (o : plotted V) d l : extrema_dots o d = Ok l -> extrema_marked o d l.
  Proof.
    unfold extrema_dots. cbv zeta. intros H. do 8 nextb H. apply Ok_inj in H. subst l.
    repeat match goal with E : line _ _ _ = Ok _ |- _ => apply line_ok in E; subst end.
    exists v, v3, peri_dots, apo_dots, v0, v1, v4, v5.
    split; [now apply attr_ok|]. split; [now apply attr_ok|]. split; [reflexivity|]. split; [cbn; tauto|]. split; [cbn; tauto|].
    repeat split; now apply gather_samples.
  Qed.
  Lemma limits_shape (l : list Q) (a : artist V) : padded l = Ok a \/ symmetric l = Ok a \/ tight l = Ok a -> exists lo hi, a = Limits lo hi.
  Proof. intros [H|[H|H]]; [unfold padded in H|unfold symmetric in H|unfold tight in H]; nextb H; nextb H; apply Ok_inj in H; subst; eauto. Qed.
  Lemma shows_data k vl opts o o1 arts : draw ecc_of sv pv slope k vl opts o = (o1, Ok arts) -> In k [PData; PAmp; PResAmp; PResOmega] ->
    exists y kd dots lo hi rest, panel_data k o y /\ extrema_marked o y dots /\
      arts = Line kd (c_t (q_config o)) (Numbers y) :: dots ++ Limits lo hi :: rest /\
      match k with
      | PData => exists tl, last_is (c_t (q_config o)) tl /\
                   match q_tref o with Some [t] => rest = VLine tl :: (if vl then [VLine t] else []) | _ => rest = [VLine tl] end
      | _ => rest = [] end.
  Proof.
    intros H I. destruct k; try (exfalso; cbn in I; intuition discriminate); cbn [draw] in H; clear I.
    - unfold plot_data_used in H. cbv zeta in H. injection H as <- H. do 6 nextb H. apply Ok_inj in H. subst arts.
      apply line_ok in E. subst v. apply dots_marked in E0. apply last_is_last in E2. apply attr_ok in E3.
      assert (L : exists lo hi, v1 = @Limits V lo hi) by (apply (limits_shape (o_data (q_object o))); destruct (says_residual _); auto). destruct L as (lo & hi & ->).
      do 6 eexists. split; [reflexivity|]. split; [exact E0|]. split; [reflexivity|]. exists v2. split; [exact E2|]. rewrite E3.
      destruct v3 as [|t [|u w]]; cbn in E4.
      + apply Ok_inj in E4. now subst.
      + destruct vl; cbn in E4; apply Ok_inj in E4; now subst.
      + apply Ok_inj in E4. now subst.
    - unfold plot_amp_gw in H. cbv zeta in H. injection H as <- H. do 3 nextb H. apply Ok_inj in H. subst arts.
      apply line_ok in E. subst v. apply dots_marked in E0. destruct (limits_shape _ _ (or_intror (or_intror E1))) as (lo & hi & ->).
      do 6 eexists. split; [reflexivity|]. split; [exact E0|]. split; reflexivity.
    - unfold plot_residual in H. injection H as <- H. do 4 nextb H. apply Ok_inj in H. subst arts. apply attr_ok in E.
      apply line_ok in E0. subst v0. apply dots_marked in E1. destruct (limits_shape _ _ (or_intror (or_introl E2))) as (lo & hi & ->).
      do 6 eexists. split; [exists v; split; [exact E|reflexivity]|]. split; [exact E1|]. split; reflexivity.
    - unfold plot_residual in H. injection H as <- H. do 4 nextb H. apply Ok_inj in H. subst arts. apply attr_ok in E.
      apply line_ok in E0. subst v0. apply dots_marked in E1. destruct (limits_shape _ _ (or_intror (or_introl E2))) as (lo & hi & ->).
      do 6 eexists. split; [exists v; split; [exact E|reflexivity]|]. split; [exact E1|]. split; reflexivity.
  Qed.

  Lemma kwargs_has own opts k kv : with_kwargs own opts = Ok k -> In kv own -> In kv k.
  Proof. unfold with_kwargs. destruct (existsb _ opts); [discriminate|]. intros H. apply Ok_inj in H. subst. intros. apply in_or_app. now left. Qed.
  Lemma kwargs_opts own opts k kv : with_kwargs own opts = Ok k -> In kv opts -> In kv k.
  Proof. unfold with_kwargs. destruct (existsb _ opts); [discriminate|]. intros H. apply Ok_inj in H. subst. intros. apply in_or_app. now right. Qed.
  Lemma padded_data (d : list Q) (a : artist V) : padded d = Ok a -> exists lo hi, a = Limits lo hi /\ ((exists v, In v d /\ (0 <= v)%Q) -> forall v, In v d -> (lo <= v <= hi)%Q).
  Proof.
    intros H. destruct (limits_shape _ _ (or_introl H)) as (lo & hi & ->). exists lo, hi. split; [reflexivity|]. intros N.
    destruct (padded_ok _ _ N H) as (lo' & hi' & X & Y). injection X as <- <-. exact Y.
  Qed.
  Lemma shows_frequency vl opts o o1 arts : draw ecc_of sv pv slope POmega vl opts o = (o1, Ok arts) ->
    exists lo hi fp fa ts vp va kp ka kd dots l h, s_window (q_state o) = Some (lo, hi) /\ s_curves (q_state o) = (Some fp, Some fa) /\
      keeps_exactly (within lo hi) (c_data_t (q_config o)) ts /\
      Forall2 (fun t v => fp t = Ok v) ts vp /\ Forall2 (fun t v => fa t = Ok v) ts va /\
      In ("c", "pericenter") kp /\ In ("c", "apocenter") ka /\ (forall kv, In kv opts -> In kv kp /\ In kv ka) /\
      extrema_marked o (c_omega (q_config o)) dots /\
      arts = Line kp ts (Numbers vp) :: Line ka ts (Numbers va) :: Line kd (c_t (q_config o)) (Numbers (c_omega (q_config o))) :: dots ++ [Limits l h] /\
      ((exists v, In v (c_omega (q_config o)) /\ (0 <= v)%Q) -> forall v, In v (c_omega (q_config o)) -> (l <= v <= h)%Q).
  Proof.
    intros H. cbn [draw] in H. unfold plot_omega_gw in H. cbv zeta in H. injection H as <- H. do 12 nextb H. apply Ok_inj in H. subst arts.
    unfold check_times in E. nextb E. apply Ok_inj in E. apply attr_ok in E11, E0, E4. destruct v11 as [lo hi].
    apply line_ok in E3, E7, E8. subst v3 v7 v8. apply dots_marked in E9. destruct (padded_data _ _ E10) as (l & h & -> & L).
    exists lo, hi, v0, v4, v, v1, v5, v2, v6. do 4 eexists. split; [exact E11|]. split; [destruct (s_curves (q_state o)); cbn in *; congruence|].
    split; [subst v; apply checks_keep|]. split; [now apply eval_curve_spec|]. split; [now apply eval_curve_spec|].
    split; [eapply kwargs_has; [exact E2|cbn; tauto]|]. split; [eapply kwargs_has; [exact E6|cbn; tauto]|].
    split; [intros kv I; split; [eapply kwargs_opts; [exact E2|exact I]|eapply kwargs_opts; [exact E6|exact I]]|].
    split; [exact E9|]. split; [reflexivity|exact L].
  Qed.
  Lemma shows_average vl opts o o1 arts : draw ecc_of sv pv slope PAverage vl opts o = (o1, Ok arts) ->
    exists k x y kd l h, (forall kv, In kv opts -> In kv k) /\
      arts = [Line k x (Numbers y); Line kd (c_t (q_config o)) (Numbers (c_omega (q_config o))); Limits l h] /\
      (s_average (q_state o) = Some (x, y) \/ s_average (q_state o) = None /\ snd (snd (get_omega_gw_average sv pv (q_config o) None (q_state o))) = Ok (x, y)) /\
      (forall level lo hi, snd (snd (get_fref_bounds sv pv level (q_config o) None (q_state o))) = Ok (lo, hi) -> min_max_over_2pi y lo hi) /\
      ((exists v, In v (c_omega (q_config o)) /\ (0 <= v)%Q) -> forall v, In v (c_omega (q_config o)) -> (l <= v <= h)%Q).
  Proof.
    intros H. cbn [draw] in H. unfold plot_omega_gw_average in H. cbv zeta in H.
    assert (A := proj1 (fill_average_spec ecc_of sv pv slope o)). destruct (fill_average sv pv o) as [o2 tv]. cbn [snd] in A. injection H as <- H. do 5 nextb H. apply Ok_inj in H. subst arts. rewrite A in E. clear A.
    nextb E2. apply Ok_inj in E2. subst v2. apply line_ok in E1, E4. subst v1 v4. destruct (padded_data _ _ E3) as (l & h & -> & L). destruct v as [x y]. cbn [fst snd].
    do 6 eexists. split; [intros kv I; eapply kwargs_opts; [exact E0|exact I]|]. split; [reflexivity|].
    assert (M : s_average (q_state o) = Some (x, y) \/ s_average (q_state o) = None /\ snd (snd (get_omega_gw_average sv pv (q_config o) None (q_state o))) = Ok (x, y)).
    { unfold mean_of in E. destruct (s_average (q_state o)); [left; now apply Ok_inj in E; subst|right; auto]. }
    split; [exact M|]. split; [|exact L]. intros level lo hi B.
    destruct (run (get_fref_bounds sv pv level (q_config o) None) (q_state o)) as [s2 rb] eqn:R.
    assert (RB : rb = Ok (lo, hi)) by (unfold run in R; rewrite R in B; exact B). subst rb. apply bounds_inv in R. destruct R as (tv1 & _ & MM & D).
    assert (tv1 = (x, y)); [|subst tv1; exact MM].
    destruct M as [M|[M1 M2]], D as [D|[D1 D2]]; try congruence. unfold run in D2. rewrite D2 in M2. cbn in M2. now apply Ok_inj in M2.
  Qed.
End More.
Section Slope.
  Context {V : Type} (ecc_of : Q -> Q -> V) (vzero : V) (vneg : V -> bool) (find_extrema : bool -> res (list nat)).
  Context (sv : list Q -> list Q -> nat -> Q -> Q) (pv : list Q -> list Q -> Q -> Q).
  Context (rfit : list Q -> list Q -> Z * Z -> res curve) (slope : list Q -> list V -> list bool).
  Notation measure := (measure_ecc ecc_of vzero vneg find_extrema sv pv rfit slope).
  Notation checks lo hi c := (filter (fun t => Qle_bool lo t && Qle_bool t hi) (c_data_t c)).

  Lemma slope_value l c s s' r : run (measure l c) s = (s', Ok r) -> s_zero s' = Some false -> s_decc s = None ->
    exists lo hi fp fa e, s_window s' = Some (lo, hi) /\ s_curves s' = (Some fp, Some fa) /\
      compute_eccentricity ecc_of fp fa lo hi (checks lo hi c) = Ok e /\ s_decc s' = Some (slope (checks lo hi c) e).
  Proof.
    intros H Z N. destruct (not_zero _ _ _ _ _ _ _ _ l c s s' r H Z) as (p & a & _ & _ & s0 & _ & _ & _ & D0 & _ & F). clear H. rename F into H. rewrite N in D0. clear N.
    unfold measure_from_extrema in H. cbv zeta in H.
    lifted H as tp Gp. lifted H as ta Ga. lifted H as pl Lp. lifted H as al La. lifted H as pf Fp. lifted H as af Fa.
    set (lo := Qmaxb pf af) in *. set (hi := Qminb pl al) in *.
    modified H. step H as fp sA Efp.
    step H as cs sA' E. unfold aread, run in E. cbn in E. injection E as <- <-.
    modified H. step H as fa sB Efa. modified H.
    assert (KW : s_window sB = Some (lo, hi)).
    { rewrite (keeps_run s_window _ _ _ _ (keeps_curve sv pv rfit s_window (fun _ _ => eq_refl) _ _ _ _ _ _) Efa). cbn.
      now rewrite (keeps_run s_window _ _ _ _ (keeps_curve sv pv rfit s_window (fun _ _ => eq_refl) _ _ _ _ _ _) Efp). }
    assert (KD : s_decc sB = None).
    { rewrite (keeps_run s_decc _ _ _ _ (keeps_curve sv pv rfit s_decc (fun _ _ => eq_refl) _ _ _ _ _ _) Efa). cbn.
      rewrite (keeps_run s_decc _ _ _ _ (keeps_curve sv pv rfit s_decc (fun _ _ => eq_refl) _ _ _ _ _ _) Efp). exact D0. }
    assert (K : s_window s' = Some (lo, hi) /\ s_curves s' = (Some fp, Some fa)).
    { split.
      - match type of H with run ?m ?s0 = _ => assert (X : keeps s_window m) end; [|rewrite (keeps_run s_window _ _ _ _ X H); exact KW].
        repeat first [apply keeps_ecc_check; reflexivity | apply keeps_tref; reflexivity | keeps_step].
      - match type of H with run ?m ?s0 = _ => assert (X : keeps s_curves m) end; [|rewrite (keeps_run s_curves _ _ _ _ X H); reflexivity].
        repeat first [apply keeps_ecc_check; reflexivity | apply keeps_tref; reflexivity | keeps_step]. }
    destruct K as [K1 K2]. step H as tf sC E1. assert (KC : s_decc sC = None).
    { match type of E1 with run ?m ?s0 = _ => assert (X : keeps s_decc m) end; [|rewrite (keeps_run s_decc _ _ _ _ X E1); exact KD]. repeat first [apply keeps_tref; reflexivity | keeps_step]. }
    step H as u1 sD E2. assert (sD = sC) by (destruct (c_ref c); [now injection E2|destruct (negb _); [discriminate|now injection E2]]). subst sD. clear E2.
    step H as u2 sD E2. assert (sD = sC) by (destruct (filter _ (fst tf)); [lifted E2 as q Q1; discriminate|now injection E2]). subst sD. clear E2.
    lifted H as r0 G0. lifted H as rn Gn. step H as u3 sD E2. assert (sD = sC) by (destruct (_ || _) in E2; [discriminate|now injection E2]). subst sD. clear E2.
    lifted H as ec Gec. lifted H as mm Gm. step H as u4 sD E2. rewrite run_check, KC in E2. unfold check_value in E2. rewrite checks_limits in E2. cbn [bind] in E2.
    destruct (compute_eccentricity ecc_of fp fa lo hi (checks lo hi c)) as [e|] eqn:CE; cbn [bind] in E2; [|discriminate].
    destruct (fst (get_interpolant _ _ _ _ _)); cbn [bind] in E2; [|discriminate]. injection E2 as E2 _.
    exists lo, hi, fp, fa, e. split; [exact K1|]. split; [exact K2|]. split; [exact CE|].
    match type of H with run ?m ?s0 = _ => assert (X : keeps s_decc m) by (repeat keeps_step) end. rewrite (keeps_run s_decc _ _ _ _ X H), <- E2. reflexivity.
  Qed.
  Lemma shows_slope l ob s s' r opts vl opts' : run (measure l (b_config (o_base ob))) s = (s', Ok r) -> s_zero s' = Some false -> s_decc s = None ->
    (forall x d, length (slope x d) = length x) ->
    let o := after_measurement ecc_of s' r (unmeasured l ob s) in
    forall o1 k x y rest, plot_eccentricity ecc_of vl opts' o = (o1, Ok (Line k x (Eccs y) :: rest)) ->
    exists k', plot_decc_dt ecc_of slope opts o = (o, Ok [Line k' x (Signs (slope x y)); HLine 0%Q]).
  Proof.
    intros RUN Z N LEN o o1 k x y rest H. destruct (slope_value _ _ _ _ _ RUN Z N) as (lo & hi & fp & fa & e & W & C & CE & D).
    set (ts := checks lo hi (b_config (o_base ob))) in *.
    assert (CT : check_times o = Ok ts) by (unfold check_times; cbn; rewrite W; reflexivity).
    assert (EC : ecc_at_checks ecc_of (put_state s' (unmeasured l ob s)) = Ok e).
    { unfold ecc_at_checks, check_times. cbn [put_state q_state q_config unmeasured q_object]. rewrite W, C. exact CE. }
    assert (QC : q_checks o = Some e) by (unfold o; cbn [after_measurement q_checks unmeasured]; now rewrite EC).
    assert (XY : x = ts /\ y = e).
    { unfold plot_eccentricity, fill_checks in H. rewrite QC in H. cbn [bind] in H. rewrite CT in H. cbn [bind] in H. injection H as _ H. apply bind_ok in H. destruct H as (v & E1 & H). apply bind_ok in H. destruct H as (m & E2 & H).
      apply Ok_inj in H. injection H as H _. apply line_ok in E1. rewrite E1 in H. injection H as _ -> ->. auto. }
    destruct XY as [-> ->]. exists (with_defaults opts plain). unfold plot_decc_dt, fill_slopes. change (q_state o) with s'. rewrite D. cbn [bind]. rewrite CT. cbn [bind].
    unfold line. cbn [size]. rewrite LEN, Nat.eqb_refl. reflexivity.
  Qed.
End Slope.
