(** Proofs about the extrema of whole calls. *)
From Coq Require Import Lia.
From Verif Require Import Base BaseLemmas UtilsModel UtilsLemmas ExtremaModel ExtremaSpec ExtremaLemmas RationalModel MeasureModel MeasureSpec LevelLemmas MeasureLemmas MeasureResults SegmentModel
  DataModel DataLemmas FitsModel FitsSpec FitsClaims InitModel InitSpec InitLemmas OptionSpec OptionLemmas WholeModel WholeSpec.
Open Scope string_scope.
Open Scope nat_scope.

Lemma block_tl {A} (l r : list A) : block_of l r -> block_of (tl l) r.
Proof.
  intros (a & b & ->). destruct l as [|x l]; [exists a, b; reflexivity|]. exists (a ++ [x])%list, b. cbn. now rewrite <- app_assoc.
Qed.

Section S.
  Context {C V : Type} (L : library C V).

  Lemma build_data m a p (w w' : world C) l o : In m method_names -> build L m a p w = (w', (l, Ok o)) -> searched m o (o_data o).
  Proof.
    intros Hm H. unfold build in H. apply wbind_ok in H. destruct H as (w1 & l1 & l2 & b & E & H & ->). cbv zeta in H. unfold searched.
    cbn in Hm. decompose [or] Hm; try contradiction; subst m; clear Hm; cbn [String.eqb Ascii.eqb Bool.eqb] in H.
    all: try (apply wret_ok in H; destruct H as (_ & _ & ->); cbn [o_base o_data]; tauto).
    all: apply wbind_ok in H; destruct H as (w2 & ? & ? & r & X1 & H & ->); apply wlift_ok in X1; destruct X1 as (-> & -> & X1).
    all: try (apply wret_ok in H; destruct H as (_ & _ & ->); cbn [o_base o_data]; unfold residual_of in X1; destruct (forallb _ _); [|discriminate];
              do 3 right; exists r; split; [destruct (b_residual b); cbn in X1; [now apply Ok_inj in X1; subst|discriminate]|tauto]).
    all: apply wbind_ok in H; destruct H as (w3 & ? & ? & dt & X2 & H & ->); apply wlift_ok in X2; destruct X2 as (-> & -> & X2);
         apply wret_ok in H; destruct H as (_ & _ & ->); cbn [o_base o_data].
    - destruct (Qeq_bool (b_amp_merger b) 0) eqn:Q; [discriminate|]. apply Ok_inj in X2. subst dt. do 2 right. left. split; [reflexivity|].
      split; [now apply Qeq_bool_neq|]. induction (w_amp (b_wave b)); cbn; constructor; auto.
    - apply Ok_inj in X2. subst dt. tauto.
  Qed.

  Definition finder_sorted (o : object) : Prop := forall b i, find_extrema L o b = Ok i -> sorted i.
  Lemma measured_blocks level o l2 s r : measure_object L level o = (l2, (s, Ok r)) -> s_zero s = Some false -> finder_sorted o ->
    exists peri apo P A, s_peri s = Some peri /\ s_apo s = Some apo /\ find_extrema L o true = Ok P /\
      (if c_midpoints (b_config (o_base o)) then A = get_apocenters_from_pericenters P else find_extrema L o false = Ok A) /\
      block_of peri P /\ block_of apo A.
  Proof.
    intros H Z S. unfold measure_object in H.
    assert (R : run (measure_ecc (lib_ecc L) (lib_zero L) (lib_negative L) (find_extrema L o) (lib_spline L) (lib_pchip L) (lib_rational L) (lib_slope L) level
      (b_config (o_base o))) (fresh (b_degrees (o_base o))) = (s, Ok r)) by (unfold run; now rewrite H).
    apply measure_inv in R. destruct R as (p0 & a0 & F & RA & [(_ & _ & _ & -> & _)|(_ & _ & gp & ga & p & a & G & CH & R)]); [discriminate Z|].
    apply from_inv in R. destruct R as (? & ? & ? & ? & ? & ? & ? & ? & ? & ? & _ & _ & _ & _ & _ & P & A & _). cbn in P, A.
    assert (S0 : sorted p0) by (exact (S true p0 F)).
    assert (S1 : sorted a0). { unfold raw_apocenters in RA. destruct (c_midpoints _); [subst a0; now apply apo_spec|exact (S false a0 RA)]. }
    destruct (good_block _ _ _ _ _ _ S0 S1 G) as (B1 & B2 & _).
    exists p, a, p0, a0. split; [exact P|]. split; [exact A|]. split; [exact F|]. split; [exact RA|].
    unfold MeasureResults.chosen in CH. destruct (c_precessing (b_config (o_base o)) && c_filtered (b_config (o_base o))); destruct CH as [-> ->]; auto using block_tl.
  Qed.

  Lemma called m a p (w w' : world C) l d o s : measure_eccentricity L m a p w = (w', (l, Ok d)) -> slookup d "gwecc_object" = Some (EObject o s) ->
    In m method_names /\ o_method o = m /\ exists l1 l2 r, build L m a p w = (w', (l1, Ok o)) /\ measure_object L (a_level a) o = (l2, (s, Ok r)).
  Proof.
    intros H O. apply measure_result in H. destruct H as (Hm & o' & s' & r & l1 & l2 & B & M & R & _ & O' & _).
    rewrite O in O'. injection O' as <- <-. split; [exact Hm|]. split; [exact M|]. eauto.
  Qed.

  Lemma whole_peaks m a p (w w' : world C) l d o s : measure_eccentricity L m a p w = (w', (l, Ok d)) -> slookup d "gwecc_object" = Some (EObject o s) ->
    s_zero s = Some false -> In m ["Amplitude"; "Frequency"; "ResidualAmplitude"; "ResidualFrequency"] ->
    (forall y k i, lib_peaks L y k = Ok i -> sorted i) ->
    exists y kw peri apo P A, searched m o y /\ s_peri s = Some peri /\ s_apo s = Some apo /\
      lib_peaks L (map (fun x => 1 * x)%Q y) kw = Ok P /\
      (if c_midpoints (b_config (o_base o)) then A = get_apocenters_from_pericenters P else lib_peaks L (map (fun x => -1 * x)%Q y) kw = Ok A) /\
      block_of peri P /\ block_of apo A /\
      forall u, with_options match wd_extra w with None => [] | Some e => e end "extrema_finding_kwargs" u -> exists width, completed u (documented_finder width) kw.
  Proof.
    intros H O Z Hm S. assert (OB := options_obeyed _ _ _ _ _ _ _ _ _ _ H O). destruct (called _ _ _ _ _ _ _ _ _ H O) as (Hn & M & l1 & l2 & r & B & R).
    assert (NF : existsb (String.eqb (o_method o)) ["AmplitudeFits"; "FrequencyFits"] = false) by (rewrite M; clear - Hm; cbn in Hm; decompose [or] Hm; try contradiction; subst m; reflexivity).
    assert (FE : forall b, find_extrema L o b = lib_peaks L (map (fun x => (if b then 1 else -1) * x)%Q (o_data o)) (b_extrema_kwargs (o_base o))) by (intros b; unfold find_extrema; now rewrite NF).
    destruct (measured_blocks _ _ _ _ _ R Z) as (peri & apo & P & A & X1 & X2 & X3 & X4 & X5 & X6); [intros b i; rewrite FE; apply S|].
    exists (o_data o), (b_extrema_kwargs (o_base o)), peri, apo, P, A. split; [eapply build_data; eauto|]. split; [exact X1|]. split; [exact X2|].
    rewrite FE in X3. split; [exact X3|]. split; [destruct (c_midpoints _); [exact X4|rewrite FE in X4; exact X4]|]. split; [exact X5|]. split; [exact X6|].
    intros u W. unfold obeys in OB. decompose [and] OB. auto.
  Qed.

  Context (env : Q -> params -> Q -> res Q) (curve_fit : Q -> list Q -> list Q -> params -> params * params -> res params)
          (find_peaks : list Q -> Z -> Q -> res (list nat)) (parabola : list Q -> list Q -> res (Q * Q)) (cubic : list Q -> list Q -> Q -> res Q).
  Hypothesis FITS : lib_fits L = fits_search env curve_fit find_peaks parabola cubic.

  Lemma number_ok kw k q : fit_number kw k = Ok q -> slookup kw k = Some (LNum q).
  Proof.
    unfold fit_number, sget, dget. fold (slookup kw k). destruct (slookup kw k) as [v|]; cbn; [|discriminate].
    destruct v; cbn; try discriminate. intros H. apply Ok_inj in H. now subst.
  Qed.
  Lemma count_ok kw k n : fit_count kw k = Ok n -> exists q, slookup kw k = Some (LNum q) /\ (q == inject_Z (Z.of_nat n))%Q.
  Proof.
    unfold fit_count. intros H. apply bind_ok in H. destruct H as (q & E & H). apply number_ok in E. exists q. split; [exact E|].
    destruct (_ && _) eqn:B; [|discriminate]. apply Ok_inj in H. subst n. apply andb_prop in B. destruct B as [B1 B2]. apply Qeq_bool_eq in B1. apply Qle_bool_iff in B2.
    rewrite Z2Nat.id; [exact B1|]. assert (0 <= Qfloor q)%Z; [|assumption]. change 0%Z with (Qfloor 0). now apply Qfloor_resp_le.
  Qed.
  Lemma fits_of_ok t ph y kw rf d : fits_of t ph y kw rf = Ok d ->
    f_t d = t /\ f_phase d = ph /\ f_data d = y /\ f_refine d = rf /\
    slookup kw "nPN" = Some (LNum (f_nPN d)) /\ slookup kw "fit_bounds_max_amp_factor" = Some (LNum (f_amp_factor d)) /\
    slookup kw "fit_bounds_max_nPN_factor" = Some (LNum (f_nPN_factor d)) /\ slookup kw "prominence_factor" = Some (LNum (f_prominence d)) /\
    slookup kw "distance_factor" = Some (LNum (f_distance d)) /\
    (exists q, slookup kw "num_orbits" = Some (LNum q) /\ (q == inject_Z (Z.of_nat (f_orbits d)))%Q) /\
    slookup kw "num_orbits_for_global_fit" = Some (LNum (f_global d)).
  Proof.
    unfold fits_of. intros H. repeat (let x := fresh "x" in let E := fresh "E" in apply bind_ok in H; destruct H as (x & E & H)). apply Ok_inj in H. subst d.
    cbn [f_t f_phase f_data f_refine f_nPN f_amp_factor f_nPN_factor f_prominence f_distance f_orbits f_global]. do 4 (split; [reflexivity|]).
    repeat match goal with E : fit_number _ _ = Ok _ |- _ => apply number_ok in E end. apply count_ok in E4. auto 10.
  Qed.
  Lemma search_ok t tm ph y kw rf b i : fits_search env curve_fit find_peaks parabola cubic t tm ph y kw rf b = Ok i ->
    exists d times info, fits_of t ph y kw rf = Ok d /\
      FitsModel.find_extrema env curve_fit find_peaks parabola cubic d tm (if b then "pericenters" else "apocenters") = (times, Ok (i, info)).
  Proof.
    unfold fits_search. intros H. apply bind_ok in H. destruct H as (d & E & H). apply bind_ok in H. destruct H as ([i' info] & E2 & H). apply Ok_inj in H. cbn in H. subst i'.
    destruct (FitsModel.find_extrema _ _ _ _ _ d tm _) as [times rr] eqn:F in E2. cbn in E2. subst rr. exists d, times, info. auto.
  Qed.
  Lemma completed_lookup u amp kw k v : completed u (documented_fits amp) kw -> forall d, In (k, d) (documented_fits amp) -> slookup kw k = Some v -> or_default u k d = v.
  Proof.
    intros W d I E. rewrite W in E. unfold or_default. destruct (slookup u k); [now injection E|].
    cbn in I. decompose [or] I; try contradiction; match goal with X : (_, _) = (_, _) |- _ => injection X as <- <- end; cbn in E; now injection E.
  Qed.
  Lemma configured_by m a p (w w' : world C) l d o s t ph y f : measure_eccentricity L m a p w = (w', (l, Ok d)) -> slookup d "gwecc_object" = Some (EObject o s) ->
    In m ["AmplitudeFits"; "FrequencyFits"] -> fits_of t ph y (o_fits o) (b_refine (o_base o)) = Ok f -> configured match wd_extra w with None => [] | Some e => e end m f.
  Proof.
    intros H O Hm F. assert (OB := options_obeyed _ _ _ _ _ _ _ _ _ _ H O). apply fits_of_ok in F. destruct F as (_ & _ & _ & RF & K1 & K2 & K3 & K4 & K5 & (q & K6 & K7) & K8).
    unfold obeys in OB. decompose [and] OB. clear OB. split; [intros v S; rewrite RF; auto|]. intros u W.
    match goal with X : forall u, In m _ -> _ -> completed _ _ _ |- _ => specialize (X u Hm W); rename X into CO end.
    cbv zeta. repeat split; try (eapply completed_lookup; [exact CO| |eassumption]; cbn; tauto).
    exists q. split; [eapply completed_lookup; [exact CO| |eassumption]; cbn; tauto|exact K7].
  Qed.

  Lemma found_sorted f tm sign i info : found_in env find_peaks parabola cubic (from_merger f tm) sign i info -> sorted i.
  Proof. intros (S & _). exact S. Qed.
  Lemma sees_it m o f tm t ph y kw rf : fits_of t ph y kw rf = Ok f -> t = w_t (b_wave (o_base o)) -> ph = w_phase (b_wave (o_base o)) -> tm = b_t_merger (o_base o) ->
    searched m o y -> sees m o (from_merger f tm).
  Proof.
    intros F -> -> -> S. apply fits_of_ok in F. destruct F as (F1 & F2 & F3 & _). unfold sees, from_merger, with_times. cbn [f_t f_phase f_data]. rewrite F1, F2, F3.
    split; [|split; [reflexivity|exact S]]. clear. induction (w_t (b_wave (o_base o))); cbn; constructor; [reflexivity|assumption].
  Qed.
  Lemma whole_fits m a p (w w' : world C) l d o s : peaks_contract find_peaks ->
    measure_eccentricity L m a p w = (w', (l, Ok d)) -> slookup d "gwecc_object" = Some (EObject o s) ->
    s_zero s = Some false -> In m ["AmplitudeFits"; "FrequencyFits"] ->
    exists f peri apo P A info, sees m o f /\ configured match wd_extra w with None => [] | Some e => e end m f /\
      s_peri s = Some peri /\ s_apo s = Some apo /\ found_in env find_peaks parabola cubic f 1 P info /\
      (if c_midpoints (b_config (o_base o)) then A = get_apocenters_from_pericenters P
       else exists info', found_in env find_peaks parabola cubic f (-1) A info') /\
      block_of peri P /\ block_of apo A.
  Proof.
    intros PC H O Z Hm. destruct (called _ _ _ _ _ _ _ _ _ H O) as (Hn & M & l1 & l2 & r & B & R).
    assert (NF : existsb (String.eqb (o_method o)) ["AmplitudeFits"; "FrequencyFits"] = true) by (rewrite M; clear - Hm; cbn in Hm; decompose [or] Hm; try contradiction; subst m; reflexivity).
    assert (FE : forall b i, find_extrema L o b = Ok i -> exists f info, fits_of (w_t (b_wave (o_base o))) (w_phase (b_wave (o_base o))) (o_data o) (o_fits o) (b_refine (o_base o)) = Ok f /\
      found_in env find_peaks parabola cubic (from_merger f (b_t_merger (o_base o))) (if b then 1%Q else (-1)%Q) i info).
    { intros b i E. unfold find_extrema in E. rewrite NF, FITS in E. apply search_ok in E. destruct E as (f & times & info & F & E). exists f, info. split; [exact F|].
      apply (returned env curve_fit find_peaks parabola cubic) in E; [|exact PC]. destruct b, E as [[X1 X2]|[X1 X2]]; try discriminate; exact X2. }
    destruct (measured_blocks _ _ _ _ _ R Z) as (peri & apo & P & A & X1 & X2 & X3 & X4 & X5 & X6).
    { intros b i E. apply FE in E. destruct E as (f & info & _ & E). eapply found_sorted, E. }
    destruct (FE _ _ X3) as (f & info & F & FI). exists (from_merger f (b_t_merger (o_base o))), peri, apo, P, A, info.
    split; [eapply sees_it; eauto; eapply build_data; eauto|]. split. { assert (CF := configured_by _ _ _ _ _ _ _ _ _ _ _ _ _ H O Hm F). exact CF. }
    split; [exact X1|]. split; [exact X2|]. split; [exact FI|]. split; [|auto].
    destruct (c_midpoints _); [exact X4|]. destruct (FE _ _ X4) as (f' & info' & F' & FI'). rewrite F in F'. apply Ok_inj in F'. subst f'. exists info'. exact FI'.
  Qed.
  Lemma whole_short m a p (w w' : world C) l d o s : measure_eccentricity L m a p w = (w', (l, Ok d)) -> slookup d "gwecc_object" = Some (EObject o s) ->
    In m ["AmplitudeFits"; "FrequencyFits"] -> forall u, with_options match wd_extra w with None => [] | Some e => e end "kwargs_for_fits_methods" u ->
    exists n ph0 y, or_default u "num_orbits" (LNum 3) = LNum n /\ (1 <= n)%Q /\ nth_error (w_phase (b_wave (o_base o))) 0 = Some ph0 /\
      In y (w_phase (b_wave (o_base o))) /\ (ph0 + (11 # 10) * (n - 1) * 4 * np_pi < y)%Q.
  Proof.
    intros H O Hm u W. destruct (called _ _ _ _ _ _ _ _ _ H O) as (Hn & M & l1 & l2 & r & B & R).
    assert (NF : existsb (String.eqb (o_method o)) ["AmplitudeFits"; "FrequencyFits"] = true) by (rewrite M; clear - Hm; cbn in Hm; decompose [or] Hm; try contradiction; subst m; reflexivity).
    assert (FX : exists i, find_extrema L o true = Ok i).
    { unfold measure_object in R. assert (R' : run (measure_ecc (lib_ecc L) (lib_zero L) (lib_negative L) (find_extrema L o) (lib_spline L) (lib_pchip L) (lib_rational L) (lib_slope L) (a_level a)
        (b_config (o_base o))) (fresh (b_degrees (o_base o))) = (s, Ok r)) by (unfold run; now rewrite R).
      apply measure_inv in R'. destruct R' as (p0 & a0 & F & _). eauto. }
    destruct FX as (i & E). unfold find_extrema in E. rewrite NF, FITS in E. apply search_ok in E. destruct E as (f & times & info & F & E).
    assert (CF := configured_by _ _ _ _ _ _ _ _ _ _ _ _ _ H O Hm F). destruct CF as [_ CF]. specialize (CF u W). cbv zeta in CF. destruct CF as (_ & _ & _ & _ & _ & (q & Q1 & Q2) & _).
    apply fits_of_ok in F. destruct F as (_ & F2 & _).
    destruct (f_phase f) as [|ph0 rest] eqn:PH.
    { unfold FitsModel.find_extrema, search, with_times in E. cbn [String.eqb Ascii.eqb Bool.eqb f_phase] in E. rewrite PH in E. cbn in E. discriminate. }
    destruct (existsb (fun y => Qlt_bool (ph0 + (11 # 10) * inject_Z (Z.of_nat (f_orbits f) - 1) * 4 * np_pi)%Q y) (ph0 :: rest)) eqn:EX.
    - apply existsb_exists in EX. destruct EX as (y & I & LT). apply Qlt_bool_iff in LT.
      destruct (Nat.eq_dec (f_orbits f) 0) as [N0|N0].
      + exfalso. destruct (too_short env curve_fit find_peaks parabola cubic f (b_t_merger (o_base o)) "pericenters" ph0) as (t' & e & X); [now rewrite PH|now right|]. congruence.
      + exists q, ph0, y. split; [exact Q1|]. split. { rewrite Q2. change 1%Q with (inject_Z 1). rewrite <- Zle_Qle. lia. }
        rewrite <- F2. split; [reflexivity|]. split; [exact I|]. rewrite Q2. assert (EQ : (inject_Z (Z.of_nat (f_orbits f) - 1) == inject_Z (Z.of_nat (f_orbits f)) - 1)%Q).
        { unfold Qeq, inject_Z, Qminus, Qplus. cbn. lia. }
        rewrite <- EQ. exact LT.
    - exfalso. destruct (too_short env curve_fit find_peaks parabola cubic f (b_t_merger (o_base o)) "pericenters" ph0) as (t' & e & X); [now rewrite PH| |congruence].
      left. rewrite PH. apply Forall_forall. intros y I. destruct (Qlt_le_dec (ph0 + (11 # 10) * inject_Z (Z.of_nat (f_orbits f) - 1) * 4 * np_pi) y) as [LT|]; [|assumption].
      exfalso. apply Bool.not_true_iff_false in EX. apply EX. apply existsb_exists. exists y. split; [exact I|]. now apply Qlt_bool_iff.
  Qed.
End S.
