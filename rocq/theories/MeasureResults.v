(** Proofs of the properties of a measurement, from the inversion lemmas. *)
From Coq Require Import Permutation.
From Verif Require Import Base BaseLemmas UtilsModel UtilsSpec UtilsLemmas ExtremaModel ExtremaSpec ExtremaLemmas
  RationalModel RationalSpec RationalLemmas MeasureModel MeasureSpec LevelLemmas MeasureLemmas AverageLemmas.
Open Scope nat_scope.

Lemma bounds_of_intro w lo hi : min_max_over_2pi w lo hi -> bounds_of w lo hi.
Proof.
  intros (a & b & Ia & Ib & M & -> & ->). exists a, b. repeat split; auto; try apply M; auto; field; discriminate.
Qed.
Lemma long_iff c a b : get (c_phase c) 0 = Ok a -> last_of (c_phase c) = Ok b ->
  Qlt_bool 5 ((b - a) / (4 * np_pi)) = true <-> long_waveform c.
Proof.
  intros Ha Hb. apply first_is_get in Ha. apply last_is_last in Hb. rewrite Qlt_bool_iff.
  assert (P := np_pi_pos).
  assert (E : ((b - a) / (4 * np_pi) * (4 * np_pi) == b - a)%Q) by (field; discriminate).
  assert (G : (5 < (b - a) / (4 * np_pi))%Q <-> (20 * np_pi < b - a)%Q).
  { split; intros H.
    - rewrite <- E. setoid_replace (20 * np_pi)%Q with (5 * (4 * np_pi))%Q by ring. apply Qmult_lt_r; [reflexivity|exact H].
    - apply (Qmult_lt_r _ _ (4 * np_pi)); [reflexivity|]. rewrite E. lra. }
  rewrite G. unfold long_waveform. split.
  - intros H. exists a, b. auto.
  - intros (a' & b' & [r Fa] & [r' Lb] & H). destruct Ha as [r1 Ha]. destruct Hb as [r2 Hb].
    rewrite Fa in Ha. injection Ha as -> _. rewrite Lb in Hb. apply app_inj_tail in Hb. destruct Hb as [_ ->]. exact H.
Qed.
Lemma num_extrema_ok c n b : snd (check_num_extrema c n) = Ok b ->
  (b = false /\ 2 <= n) \/ (b = true /\ n < 2 /\ long_waveform c /\ c_return_zero c = true).
Proof.
  unfold check_num_extrema. destruct (Nat.ltb_spec n 2) as [L|L].
  - intros H. inv_lbind H. inv_lbind H. cbn zeta in H.
    destruct (Qlt_bool _ _) eqn:Q1; [|discriminate]. destruct (c_return_zero c) eqn:R; [|discriminate].
    cbn in H. apply Ok_inj in H. subst. right. repeat split; auto. eapply long_iff; eauto.
  - intros H. cbn in H. apply Ok_inj in H. subst. left. auto.
Qed.
Lemma num_extrema_few c n : n < 2 -> c_phase c <> [] ->
  (long_waveform c -> c_return_zero c = true -> snd (check_num_extrema c n) = Ok true) /\
  (~ (long_waveform c /\ c_return_zero c = true) -> snd (check_num_extrema c n) = Err GenericException).
Proof.
  intros L N. unfold check_num_extrema. rewrite (proj2 (Nat.ltb_lt n 2) L).
  destruct (last_of_nonempty _ N) as [b Hb].
  assert (Ha : exists a, get (c_phase c) 0 = Ok a) by (destruct (c_phase c); [contradiction|eexists; reflexivity]).
  destruct Ha as [a Ha]. assert (G := long_iff c a b Ha Hb).
  rewrite (lbind_val _ _ b) by exact Hb. rewrite (lbind_val _ _ a) by exact Ha. cbn zeta.
  split.
  - intros LW R. apply G in LW. rewrite LW, R. reflexivity.
  - intros NN. destruct (Qlt_bool _ _) eqn:Q1; [|reflexivity].
    destruct (c_return_zero c) eqn:R; [|reflexivity]. exfalso. apply NN. split; [now apply G|reflexivity].
Qed.
Lemma run_bind_val {A B} (m : act A) (k : A -> act B) s s1 a : run m s = (s1, Ok a) -> run (abind m k) s = run (k a) s1.
Proof. intros H. now rewrite run_bind, H. Qed.
Lemma run_read {A} (f : state -> A) s : run (aread f) s = (s, Ok (f s)).
Proof. reflexivity. Qed.
Lemma run_ret {A} (a : A) s : run (aret a) s = (s, Ok a).
Proof. reflexivity. Qed.
Lemma run_bind_exn {A B} (m : act A) (k : A -> act B) s s1 e : run m s = (s1, Err e) -> run (abind m k) s = (s1, Err e).
Proof. intros H. now rewrite run_bind, H. Qed.

Lemma Forall2_len {A B} (R : A -> B -> Prop) l1 l2 : Forall2 R l1 l2 -> length l1 = length l2.
Proof. induction 1; cbn; congruence. Qed.

Section Results.
  Context {V : Type} (ecc_of : Q -> Q -> V) (vzero : V) (vneg : V -> bool) (find_extrema : bool -> res (list nat)).
  Context (sv : list Q -> list Q -> nat -> Q -> Q) (pv : list Q -> list Q -> Q -> Q).
  Context (rfit : list Q -> list Q -> Z * Z -> res curve) (slope : list Q -> list V -> list bool).
  Notation measure := (measure_ecc ecc_of vzero vneg find_extrema sv pv rfit slope).
  Notation from_extrema := (measure_from_extrema ecc_of vneg sv pv rfit slope).
  Notation spline_through := (spline_through sv).

  (** ** the result dictionary *)
  Definition shaped (c : config) (r : result V) (ecc : list V) (mean ref : list Q) : Prop :=
    entries (r_eccentricity r) = ecc /\ entries (r_mean_anomaly r) = mean /\
    is_scalar (r_eccentricity r) = c_scalar c /\ is_scalar (r_mean_anomaly r) = c_scalar c /\
    match c_ref c with
    | TimeRef _ => exists o, r_tref_out r = Some o /\ r_fref_out r = None /\ entries o = ref /\ is_scalar o = c_scalar c
    | FreqRef _ => exists o, r_fref_out r = Some o /\ r_tref_out r = None /\ entries o = ref /\ is_scalar o = c_scalar c
    end.
  Lemma one_entry {A} (l : list A) a : length l = 1 -> get l 0 = Ok a -> l = [a].
  Proof. destruct l as [|x [|y l]]; try discriminate. intros _ H. cbn in H. apply Ok_inj in H. now subst. Qed.
  Lemma make_result_inv c ecc mean ref r : length ref = length ecc -> make_result c ecc mean ref = Ok r ->
    shaped c r ecc mean ref.
  Proof.
    intros L H. unfold make_result in H. unfold shaped. destruct (c_scalar c).
    - destruct (Nat.eqb_spec (length ecc) 1) as [E1|]; [|discriminate].
      destruct (Nat.eqb_spec (length mean) 1) as [E2|]; [|discriminate]. cbn [negb] in H.
      inv_bind H. inv_bind H. inv_bind H. apply one_entry in E, E0, E3; [|congruence..]. subst.
      apply Ok_inj in H. subst. destruct (c_ref c); cbn; repeat split; eexists; repeat split.
    - apply Ok_inj in H. subst. destruct (c_ref c); cbn; repeat split; eexists; repeat split.
  Qed.

  (** ** what a returning measurement went through *)
  Definition chosen (c : config) (gp ga p a : list nat) : Prop :=
    if c_precessing c && c_filtered c then p = tl gp /\ a = tl ga else p = gp /\ a = ga.
  Definition raw_apocenters (c : config) (p0 a0 : list nat) : Prop :=
    if c_midpoints c then a0 = get_apocenters_from_pericenters p0 else find_extrema false = Ok a0.
  Lemma measure_inv l c s s' r : run (measure l c) s = (s', Ok r) ->
    exists p0 a0, find_extrema true = Ok p0 /\ raw_apocenters c p0 a0 /\
      ((c_return_zero c = true /\ long_waveform c /\ (length p0 < 2 \/ length a0 < 2) /\
        s' = set_zero true s /\ zero_result vzero c = Ok r) \/
       (2 <= length p0 /\ 2 <= length a0 /\
        exists gp ga p a, snd (get_good_extrema l (c_phase c) p0 a0) = Ok (gp, ga) /\ chosen c gp ga p a /\
          run (from_extrema l c p a) (set_locations p a (set_locations gp ga (set_zero false s))) = (s', Ok r))).
  Proof.
    intros H. unfold measure_ecc in H. lifted H as p0 Hp.
    step H as fewp st E. rewrite run_log in E. injection E as <- Np. apply num_extrema_ok in Np.
    step H as a0 st E. assert (Ha : st = s /\ raw_apocenters c p0 a0).
    { unfold raw_apocenters. destruct (c_midpoints c); [cbn in E; injection E as <- <-; auto|].
      rewrite run_lift in E. injection E as <- E. auto. }
    destruct Ha as [-> Ha]. clear E.
    step H as fewa st E. rewrite run_log in E. injection E as <- Na. apply num_extrema_ok in Na.
    exists p0, a0. split; [exact Hp|]. split; [exact Ha|].
    destruct ((fewp || fewa) && c_return_zero c) eqn:F.
    - left. modified H. rewrite run_lift in H. injection H as <- H.
      apply andb_true_iff in F. destruct F as [F R]. split; [exact R|].
      destruct Np as [[-> Np]|(-> & Np & LW & _)]; [|repeat split; auto].
      destruct Na as [[-> Na]|(-> & Na & LW & _)]; [discriminate|]. repeat split; auto.
    - right.
      assert (X : 2 <= length p0 /\ 2 <= length a0).
      { destruct Np as [[-> Np]|(-> & Np & LW & R)]; [|rewrite R in F; discriminate].
        destruct Na as [[-> Na]|(-> & Na & LW & R)]; [|rewrite R in F; discriminate]. auto. }
      destruct X as [X1 X2]. split; [exact X1|]. split; [exact X2|].
      modified H. step H as good st E. rewrite run_log in E. injection E as <- G. destruct good as [gp ga].
      modified H. cbn [fst snd] in H.
      step H as u1 st E. rewrite run_log in E. injection E as <- _.
      step H as u2 st E. rewrite run_log in E. injection E as <- _.
      set (pa := if c_precessing c && c_filtered c then (tl gp, tl ga) else (gp, ga)) in H.
      cbv zeta in H. modified H.
      step H as u3 st E. rewrite run_log in E. injection E as <- _.
      step H as u4 st E. rewrite run_log in E. injection E as <- _.
      step H as u5 st E. rewrite run_log in E. injection E as <- _.
      exists gp, ga, (fst pa), (snd pa). split; [exact G|]. split; [|exact H].
      unfold chosen, pa. destruct (c_precessing c && c_filtered c); auto.
  Qed.
  Lemma not_zero l c s s' r : run (measure l c) s = (s', Ok r) -> s_zero s' = Some false ->
    exists p a, s_peri s' = Some p /\ s_apo s' = Some a /\
      exists s0, s_average s0 = s_average s /\ s_peri s0 = Some p /\ s_apo s0 = Some a /\ s_decc s0 = s_decc s /\
      s_degrees s0 = s_degrees s /\
      run (from_extrema l c p a) s0 = (s', Ok r).
  Proof.
    intros H Z. apply measure_inv in H. destruct H as (p0 & a0 & _ & _ & [(_ & _ & _ & -> & _)|(_ & _ & gp & ga & p & a & _ & _ & H)]).
    - cbn in Z. discriminate.
    - exists p, a.
      assert (F := from_inv ecc_of vneg sv pv rfit slope l c p a _ s' r H).
      destruct F as (? & ? & ? & ? & ? & ? & ? & ? & ? & ? & _ & _ & _ & _ & _ & P & A & _).
      split; [exact P|]. split; [exact A|]. eexists. split; [|split; [|split; [|split; [|split; [|exact H]]]]]; reflexivity.
  Qed.
  Lemma zero_or_not l c s s' r : run (measure l c) s = (s', Ok r) -> s_zero s' = Some true \/ s_zero s' = Some false.
  Proof.
    intros H. apply measure_inv in H. destruct H as (p0 & a0 & _ & _ & [(_ & _ & _ & -> & _)|(_ & _ & gp & ga & p & a & _ & _ & H)]).
    - now left.
    - right. apply from_inv in H. destruct H as (? & ? & ? & ? & ? & ? & ? & ? & ? & ? & _ & _ & _ & _ & _ & _ & _ & Z & _).
      rewrite Z. reflexivity.
  Qed.

  (** ** where the two curves come from *)
  Lemma spline_curve_inv x y kw f : spline_curve sv pv x y kw = Ok f -> spline_through x y f.
  Proof.
    unfold spline_curve. intros H. inv_bind H. apply get_interpolant_spline_ok in E. cbn zeta in E.
    destruct E as (I & L & ->). rewrite fix_ext_false in H. apply Ok_inj in H. subst f.
    eexists. intros t v Hv. apply eval_no_extrap in Hv. destruct Hv as (lo & hi & A & B & C & D).
    split; [exact D|]. exists lo, hi. split; [|split; [|exact C]].
    - apply first_is_get. now apply get_ok.
    - apply last_is_last. destruct (last_of_nonempty x) as [h Hh]; [intros ->; discriminate|].
      assert (B' := Hh). apply last_of_nth in B'. destruct B' as [B' _]. rewrite B in B'. apply Some_inj in B'. now subst.
  Qed.
  Lemma curve_source l c np na tc loc s1 s2 f : run (extrema_curve sv pv rfit l c np na tc loc) s1 = (s2, Ok f) ->
    drawn_through sv rfit c loc f.
  Proof.
    intros H. unfold extrema_curve in H. destruct (length loc <? 2); [discriminate|].
    lifted H as x Gx. lifted H as y Gy. step H as g st E. lifted H as v Ev. lifted H as b Eb.
    assert (H' : f = g).
    { destruct b; [step H as u st' E2; rewrite run_log in E2|]; cbn in H; now injection H. }
    subst g. clear H. exists x, y. split; [now apply gather_samples|]. split; [now apply gather_samples|].
    destruct (c_interp c).
    - rewrite run_lift in E. injection E as _ E. now apply spline_curve_inv in E.
    - unfold rational_curve in E.
      step E as d st0 E1. lifted E as x0 E2. lifted E as xn E3. lifted E as t1 E4. lifted E as t0 E5. lifted E as xt E6.
      step E as r st1 E7. rewrite run_log in E7. injection E7 as <- E7.
      modified E. cbn in E. injection E as _ <-.
      apply search_ok in E7. destruct E7 as [_ E7]. destruct (sr_degrees r) as [dd|].
      + left. exists dd. destruct E7 as [E7 _]. unfold get_rational_fit in E7. now inv_bind E7.
      + right. destruct E7 as [E7 _]. now apply spline_curve_inv in E7.
  Qed.

  (** ** C16, C18, C24: the time-domain result *)
  Lemma window_inside tp ta lo hi t : common_window tp ta lo hi -> within lo hi t ->
    exists pf pl af al, first_is tp pf /\ last_is tp pl /\ first_is ta af /\ last_is ta al /\
      (pf <= t <= pl)%Q /\ (af <= t <= al)%Q.
  Proof.
    intros (pf & pl & af & al & A & B & C & D & L) [W1 W2]. exists pf, pl, af, al. repeat split; auto; lra.
  Qed.
  Lemma mean_is tp ta lo hi t : increasing tp -> common_window tp ta lo hi -> within lo hi t ->
    mean_anomaly_is tp t (mean_anomaly_at tp t).
  Proof.
    intros Inc W I. destruct (window_inside _ _ _ _ _ W I) as (pf & pl & af & al & F & L & _ & _ & B & _).
    destruct (locate tp pf pl t Inc F L B) as [E|(i & x & y & A & B' & C)].
    - right. exists pl. split; [exact L|]. split; [exact E|]. now apply (mean_last tp pl).
    - left. exists i, x, y. repeat split; try tauto. now apply (mean_between tp i x y).
  Qed.
  Lemma measured l c s s' r : run (measure l c) s = (s', Ok r) -> s_zero s' = Some false ->
    exists p a tp ta lo hi fp fa ts,
      s_peri s' = Some p /\ s_apo s' = Some a /\ samples_at (c_t c) p tp /\ samples_at (c_t c) a ta /\
      common_window tp ta lo hi /\ s_window s' = Some (lo, hi) /\ s_curves s' = (Some fp, Some fa) /\
      drawn_through sv rfit c p fp /\ drawn_through sv rfit c a fa /\
      ts <> [] /\ (forall t, In t ts -> within lo hi t) /\
      Forall2 (fun t e => exists wp wa, fp t = Ok wp /\ fa t = Ok wa /\ e = ecc_of wp wa) ts (entries (r_eccentricity r)) /\
      entries (r_mean_anomaly r) = map (mean_anomaly_at tp) ts /\
      match c_ref c with
      | TimeRef tr => keeps_exactly (within lo hi) tr ts /\
          exists o, r_tref_out r = Some o /\ entries o = ts
      | FreqRef fr => exists o, r_fref_out r = Some o /\ length (entries o) = length ts
      end.
  Proof.
    intros H Z. destruct (not_zero l c s s' r H Z) as (p & a & P & A & s0 & _ & _ & _ & _ & _ & F).
    apply from_inv in F.
    destruct F as (tp & ta & lo & hi & fp & fa & tref & fref & tout & ecc & Sp & Sa & W & SW & SC & _ & _ & _ & R & K & NE & EE & MR & (s1 & s2 & np & na & tc & C1) & (s3 & s4 & np' & na' & tc' & C2)).
    apply curve_source in C1, C2.
    assert (LE := Forall2_len _ _ _ EE).
    exists p, a, tp, ta, lo, hi, fp, fa, tout. repeat (split; [first [assumption | intros t I; now apply (keeps_exactly_in _ _ _ K) in I]|]).
    destruct (c_ref c) as [tr|fr] eqn:RR.
    - destruct R as [-> R]. apply make_result_inv in MR; [|auto]. destruct MR as (M1 & M2 & _ & _ & M3). rewrite RR in M3.
      destruct M3 as (o & M3 & _ & M4 & _). split; [now rewrite M1|]. split; [exact M2|]. split; [exact K|]. eauto.
    - destruct R as [R _]. apply make_result_inv in MR; [|congruence]. destruct MR as (M1 & M2 & _ & _ & M3). rewrite RR in M3.
      destruct M3 as (o & M3 & _ & M4 & _). split; [now rewrite M1|]. split; [exact M2|]. exists o. split; [exact M3|]. congruence.
  Qed.
  Lemma result_shape l c s s' r : run (measure l c) s = (s', Ok r) ->
    is_scalar (r_eccentricity r) = c_scalar c /\ is_scalar (r_mean_anomaly r) = c_scalar c /\
    length (entries (r_eccentricity r)) = length (entries (r_mean_anomaly r)) /\
    match c_ref c with
    | TimeRef _ => exists o, r_tref_out r = Some o /\ r_fref_out r = None /\ is_scalar o = c_scalar c /\
                     length (entries o) = length (entries (r_eccentricity r))
    | FreqRef _ => exists o, r_fref_out r = Some o /\ r_tref_out r = None /\ is_scalar o = c_scalar c /\
                     length (entries o) = length (entries (r_eccentricity r))
    end.
  Proof.
    intros H. apply measure_inv in H. destruct H as (p0 & a0 & _ & _ & [(_ & _ & _ & _ & H)|(_ & _ & gp & ga & p & a & _ & _ & H)]).
    - unfold zero_result in H. apply make_result_inv in H; [|now rewrite map_length].
      destruct H as (-> & -> & -> & -> & H). rewrite !map_length. repeat split. destruct (c_ref c); destruct H as (o & A & B & C & D);
        exists o; rewrite C; auto.
    - apply from_inv in H.
      destruct H as (tp & ta & lo & hi & fp & fa & tref & fref & tout & ecc & Sp & Sa & W & SW & SC & _ & _ & _ & R & K & NE & EE & MR & _ & _).
      assert (LE := Forall2_len _ _ _ EE).
      assert (LR : length (match c_ref c with TimeRef _ => tout | FreqRef _ => fref end) = length ecc).
      { destruct (c_ref c); [auto|]. destruct R. congruence. }
      apply make_result_inv in MR; [|exact LR]. destruct MR as (-> & -> & -> & -> & H). rewrite map_length.
      split; [reflexivity|]. split; [reflexivity|]. split; [auto|].
      destruct (c_ref c); destruct H as (o & A & B & C & D); exists o; rewrite C; auto.
  Qed.

  (** ** C19 *)
  Lemma no_reference l c tr tr' s s' r lo hi :
    run (measure l (with_ref c (TimeRef tr'))) s = (s', Ok r) -> s_zero s' = Some false -> s_window s' = Some (lo, hi) ->
    (forall t, In t tr -> ~ within lo hi t) ->
    snd (run (measure l (with_ref c (TimeRef tr))) s) = Err GenericException.
  Proof.
    intros H Z SW N. unfold measure_ecc in *.
    Local Ltac follow H := let v := fresh "v" in let st := fresh "st" in let E := fresh "E" in
      apply run_bind_ok in H; destruct H as (v & st & E & H);
      (etransitivity; [apply (f_equal snd); eapply run_bind_val; exact E|]); clear E.
    follow H. follow H. follow H. follow H.
    cbn [c_return_zero with_ref] in *.
    match type of H with run (if ?b then _ else _) _ = _ => destruct b end.
    { exfalso. modified H. rewrite run_lift in H. injection H as <- _. discriminate. }
    follow H. follow H. follow H. follow H. follow H. cbv zeta in *. follow H. follow H. follow H. follow H.
    cbn [c_precessing c_filtered with_ref] in *.
    set (pa := if c_precessing c && c_filtered c then _ else _) in *. clearbody pa. destruct pa as [p a]. cbn [fst snd] in *.
    unfold measure_from_extrema in *. cbv zeta in *.
    step H as tp st' E. etransitivity; [apply (f_equal snd); eapply run_bind_val; exact E|]. clear E.
    follow H. follow H. follow H. follow H. follow H.
    match type of H with run (abind (amod (set_window (?a, ?b))) _) _ = _ => set (w0 := a) in *; set (w1 := b) in * end.
    step H as u stw E. etransitivity; [apply (f_equal snd); eapply run_bind_val; exact E|]. unfold amod, run in E. cbn in E. injection E as <- <-.
    match type of H with run _ ?s0 = _ => assert (KW : s_window s' = s_window s0) end.
    { eapply keeps_run; [|exact H].
      repeat first [apply keeps_curve; reflexivity | apply keeps_ecc_check; reflexivity | keeps_step]. }
    cbn [s_window set_window] in KW. rewrite SW in KW. apply Some_inj in KW. injection KW as -> ->.
    follow H. follow H. follow H. follow H. follow H. clear H.
    cbn [c_ref with_ref].
    etransitivity; [apply (f_equal snd); eapply run_bind_val; reflexivity|]. cbn [fst snd].
    etransitivity; [apply (f_equal snd); eapply run_bind_val; reflexivity|].
    assert (F : filter (fun t => Qle_bool w0 t && Qle_bool t w1) tr = []).
    { assert (K : keeps_exactly (within w0 w1) tr (filter (fun t => Qle_bool w0 t && Qle_bool t w1) tr))
        by (apply keeps_exactly_filter; intros; apply inside_iff).
      destruct (filter _ tr) as [|x y] eqn:Ef; [reflexivity|]. exfalso.
      destruct (proj1 (keeps_exactly_in _ _ _ K x) (or_introl eq_refl)) as [I W]. now apply (N x). }
    cbv beta. fold w0. fold w1. rewrite F. rewrite run_bind.
    assert (CL : check_input_limits tr w0 w1 = Ok tt \/ check_input_limits tr w0 w1 = Err GenericException).
    { unfold check_input_limits. destruct (existsb _ tr); [auto|]. destruct (existsb _ tr); auto. }
    destruct CL as [CL|CL]; rewrite CL; reflexivity.
  Qed.

  (** ** C20 *)
  Lemma zero_fallback l c s s' r : run (measure l c) s = (s', Ok r) -> s_zero s' = Some true ->
    c_return_zero c = true /\ long_waveform c /\
    (exists p0 a0, find_extrema true = Ok p0 /\ raw_apocenters c p0 a0 /\ (length p0 < 2 \/ length a0 < 2)) /\
    entries (r_eccentricity r) = map (fun _ => vzero) (requested c) /\
    entries (r_mean_anomaly r) = map (fun _ => 0%Q) (requested c) /\
    match c_ref c with
    | TimeRef tr => exists o, r_tref_out r = Some o /\ entries o = tr
    | FreqRef fr => exists o, r_fref_out r = Some o /\ entries o = fr
    end.
  Proof.
    intros H Z. apply measure_inv in H. destruct H as (p0 & a0 & P & A & [(R & LW & N & _ & H)|(_ & _ & gp & ga & p & a & _ & _ & H)]).
    - split; [exact R|]. split; [exact LW|]. split; [exists p0, a0; auto|].
      unfold zero_result in H. apply make_result_inv in H; [|now rewrite map_length].
      destruct H as (H1 & H2 & _ & _ & H). split; [exact H1|]. split; [exact H2|].
      destruct (c_ref c); destruct H as (o & H3 & _ & H4 & _); eauto.
    - apply from_inv in H. destruct H as (? & ? & ? & ? & ? & ? & ? & ? & ? & ? & _ & _ & _ & _ & _ & _ & _ & Z' & _).
      rewrite Z in Z'. discriminate.
  Qed.
  Lemma few_extrema l c s p0 a0 : find_extrema true = Ok p0 -> raw_apocenters c p0 a0 -> (length p0 < 2 \/ length a0 < 2) ->
    c_phase c <> [] ->
    (~ (c_return_zero c = true /\ long_waveform c) -> snd (run (measure l c) s) = Err GenericException) /\
    (c_return_zero c = true -> long_waveform c -> (c_scalar c = true -> length (requested c) = 1) ->
       exists r, run (measure l c) s = (set_zero true s, Ok r)).
  Proof.
    intros P A N NP.
    assert (RA : run (if c_midpoints c then aret (get_apocenters_from_pericenters p0) else alift (find_extrema false)) s = (s, Ok a0)).
    { unfold raw_apocenters in A. destruct (c_midpoints c); [now subst|]. now rewrite A. }
    assert (ENOUGH : forall n, 2 <= n -> snd (check_num_extrema c n) = Ok false).
    { intros n Ln. unfold check_num_extrema. apply Nat.ltb_ge in Ln. rewrite Ln. reflexivity. }
    split.
    - intros F. unfold measure_ecc.
      erewrite run_bind_val by (rewrite run_lift, P; reflexivity).
      destruct (le_lt_dec 2 (length p0)) as [L|L].
      + erewrite run_bind_val by (rewrite run_log, ENOUGH by exact L; reflexivity).
        erewrite run_bind_val by exact RA.
        assert (La : length a0 < 2) by lia.
        erewrite run_bind_exn; [reflexivity|]. rewrite run_log.
        rewrite (proj2 (num_extrema_few c _ La NP)); [reflexivity|]. tauto.
      + erewrite run_bind_exn; [reflexivity|]. rewrite run_log.
        rewrite (proj2 (num_extrema_few c _ L NP)); [reflexivity|]. tauto.
    - intros R LW SC.
      assert (EV : forall n, snd (check_num_extrema c n) = Ok (n <? 2)).
      { intros n. destruct (Nat.ltb_spec n 2) as [L|L]; [now apply num_extrema_few|now apply ENOUGH]. }
      assert (ZR : exists r, zero_result vzero c = Ok r).
      { unfold zero_result, make_result. fold (requested c). destruct (c_scalar c); [|eexists; reflexivity].
        specialize (SC eq_refl). rewrite !map_length, SC. cbn [Nat.eqb negb].
        destruct (requested c) as [|x [|y q]]; try discriminate. cbn. eexists; reflexivity. }
      destruct ZR as [r ZR]. exists r. unfold measure_ecc.
      erewrite run_bind_val by (rewrite run_lift, P; reflexivity).
      erewrite run_bind_val by (rewrite run_log, EV; reflexivity).
      erewrite run_bind_val by exact RA.
      erewrite run_bind_val by (rewrite run_log, EV; reflexivity).
      assert (B : (length p0 <? 2) || (length a0 <? 2) = true).
      { apply orb_true_iff. rewrite !Nat.ltb_lt. exact N. }
      rewrite B, R. cbn [andb].
      erewrite run_bind_val by reflexivity. rewrite run_lift, ZR. reflexivity.
  Qed.

  (** ** C26, C27: the frequency-domain result *)
  Lemma freq_measured l c fr s s' r : c_ref c = FreqRef fr -> run (measure l c) s = (s', Ok r) -> s_zero s' = Some false ->
    In (c_average c) averaging_methods /\
    exists tv0 tv lo hi o ts,
      s_average s' = Some tv /\ (s_average s = Some tv0 \/ (s_average s = None /\ tv0 = tv)) /\
      bounds_of (snd tv0) lo hi /\ increasing (snd tv) /\
      r_fref_out r = Some o /\ keeps_exactly (in_range lo hi) fr (entries o) /\ entries o <> [] /\
      interpolate sv pv (entries o) (map (fun w => w / (2 * np_pi))%Q (snd tv)) (fst tv) false "spline" (Some (c_general c)) = Ok ts /\
      Forall2 (fun t e => exists wp wa fp fa, s_curves s' = (Some fp, Some fa) /\ fp t = Ok wp /\ fa t = Ok wa /\ e = ecc_of wp wa)
        ts (entries (r_eccentricity r)) /\
      exists s1, s_peri s1 = s_peri s' /\ s_apo s1 = s_apo s' /\ s_window s1 = s_window s' /\ s_curves s1 = s_curves s' /\
        run (get_omega_gw_average sv pv c (Some (c_average c))) s1 = (s1, Ok tv).
  Proof.
    intros RR H Z. destruct (not_zero l c s s' r H Z) as (p & a & P & A & s0 & AV & P0 & A0 & _ & _ & F).
    apply from_inv in F.
    destruct F as (tp & ta & lo & hi & fp & fa & tref & fref & tout & ecc & Sp & Sa & W & SW & SC & SP & SA & _ & R & K & NE & EE & MR & _ & _).
    rewrite RR in R. destruct R as (LF & s1 & s2 & T & A1 & A2 & B1 & B2 & B3 & B4).
    assert (TT := T). apply tref_inv in T. destruct T as (M & tv0 & tv & flo & fhi & T1 & T2 & T3 & T4 & T5 & T6 & T7 & T8).
    split; [exact M|].
    assert (LE := Forall2_len _ _ _ EE). rewrite RR in MR.
    apply make_result_inv in MR; [|congruence]. destruct MR as (M1 & M2 & _ & _ & M3). rewrite RR in M3.
    destruct M3 as (o & M3 & _ & M4 & _). subst fref.
    (* every converted time is inside, since no frequency was lost *)
    assert (LT : length tref = length (entries o)).
    { apply interpolate_spline_safe in T7. tauto. }
    assert (TO : tout = tref).
    { assert (LK : length tout = length tref) by congruence. clear -K LK.
      induction K as [|x l out Hx K IH|x l out Hx K IH]; [reflexivity|f_equal; apply IH; cbn in LK; lia|].
      exfalso. assert (length out <= length l). { clear -K. induction K; cbn; lia. } cbn in LK. lia. }
    subst tout.
    exists tv0, tv, flo, fhi, o, tref.
    split. { rewrite <- A2, T8. reflexivity. }
    split. { rewrite A1, AV in T1. exact T1. }
    split. { now apply bounds_of_intro. }
    split; [exact T6|]. split; [exact M3|]. split; [exact T3|]. split; [exact T4|]. split; [exact T7|].
    split.
    { rewrite M1. clear -EE SC. induction EE as [|t e ts es (wp & wa & X1 & X2 & X3) EE IH]; constructor; auto. exists wp, wa, fp, fa. auto. }
    exists s1. rewrite B1, B2, B3, B4, SP, SA, SW, SC. auto.
  Qed.
  Lemma orbit_averaged_inv c p a ts v : orbit_averaged sv pv c p a ts = Ok v ->
    exists wp wa tp ta m, orbit_averages c p = Ok wp /\ orbit_averages c a = Ok wa /\ increasing wp /\ increasing wa /\
      average_times c p = Ok tp /\ average_times c a = Ok ta /\
      Permutation m (combine (ta ++ tp) (wa ++ wp)) /\ StronglySorted (fun x y => (fst x <= fst y)%Q) m /\ increasing (map snd m) /\
      increasing (map fst m) /\ length v = length ts /\
      exists lo hi, first_is (map fst m) lo /\ last_is (map fst m) hi /\ forall t, In t ts -> within lo hi t.
  Proof.
    unfold orbit_averaged. intros H. inv_bind H. inv_bind H. inv_bind H. inv_bind H. inv_bind H. inv_bind H. cbv zeta in H. inv_bind H.
    destruct v2, v3, v6. apply check_monotonicity_ok in E1, E2, E5. apply interpolate_spline_safe in H.
    destruct H as (_ & I & _ & L & lo & hi & B1 & B2 & B3).
    exists v0, v1, v4, v5, (sort_pairs (combine (v5 ++ v4) (v1 ++ v0))).
    repeat (split; [first [assumption | apply sort_pairs_perm | apply sort_pairs_sorted]|]).
    exists lo, hi. split; [apply first_is_get; now apply get_ok|]. split; [|exact B3].
    apply last_is_last. set (x := map fst _) in *. destruct (last_of_nonempty x) as [h Hh]; [intros E6; rewrite E6 in B1; discriminate|].
    assert (B' := Hh). apply last_of_nth in B'. destruct B' as [B' _]. rewrite B2 in B'. apply Some_inj in B'. now subst.
  Qed.

  (** ** C29: histories *)
  Lemma keeps_from {B} (f : state -> B) l c p a :
    (forall d s, f (set_degrees d s) = f s) -> (forall d s, f (set_window d s) = f s) -> (forall d s, f (set_curves d s) = f s) ->
    (forall d s, f (set_decc d s) = f s) ->
    (forall tr, c_ref c = FreqRef tr -> forall d s, f (set_average d s) = f s) ->
    keeps f (from_extrema l c p a).
  Proof.
    intros H1 H2 H3 H4 H5. unfold measure_from_extrema. cbv zeta.
    repeat first [apply keeps_curve; exact H1 | apply keeps_ecc_check; exact H4 | apply keeps_mod; now auto
                 | match goal with |- keeps f (match c_ref c with _ => _ end) => destruct (c_ref c) eqn:?; [|try (apply keeps_tref; eapply H5; reflexivity)] end
                 | keeps_step].
  Qed.
  Lemma keeps_average_measure l c tr : c_ref c = TimeRef tr -> keeps s_average (measure l c).
  Proof.
    intros E. unfold measure_ecc.
    repeat first [apply keeps_from; try reflexivity; intros ? E'; rewrite E in E'; discriminate | keeps_step].
  Qed.
  Lemma bounds_cached l c m s tv s' b : s_average s = Some tv -> run (get_fref_bounds sv pv l c m) s = (s', b) ->
    s' = s /\ forall lo hi, b = Ok (lo, hi) -> min_max_over_2pi (snd tv) lo hi.
  Proof.
    intros A H. split.
    - unfold get_fref_bounds in H. rewrite run_bind in H.
      set (m0 := if c_use_only c then _ else _) in H.
      assert (R0 : fst (run m0 s) = s) by (unfold m0; destruct (c_use_only c); reflexivity).
      destruct (run m0 s) as [s1 [u|e]]; cbn in R0; subst s1; [|now injection H].
      rewrite run_bind, run_read, A, run_bind, run_ret in H.
      rewrite run_bind, run_lift in H. destruct (qmin (snd tv)); [|now injection H].
      rewrite run_bind, run_lift in H. destruct (qmax (snd tv)); now injection H.
    - intros lo hi ->. apply bounds_inv in H. destruct H as (tv' & _ & M & [A'|[A' _]]); rewrite A in A'; [|discriminate].
      apply Some_inj in A'. now subst.
  Qed.

  Definition cached_bounds (l : Z) (c : config) (tv : list Q * list Q) : res (Q * Q) :=
    match snd (if c_use_only c then dbg "fref bounds only for the short segment" l false else lret tt) with
    | Ok _ => do lo <- qmin (snd tv); do hi <- qmax (snd tv); Ok (lo / 2 / np_pi, hi / 2 / np_pi)%Q
    | Err e => Err e
    end.
  Lemma bounds_fixed l c m s tv : s_average s = Some tv -> run (get_fref_bounds sv pv l c m) s = (s, cached_bounds l c tv).
  Proof.
    intros A. unfold get_fref_bounds, cached_bounds. rewrite run_bind.
    assert (R0 : run (if c_use_only c then alog (dbg "fref bounds only for the short segment" l false) else aret tt) s =
      (s, snd (if c_use_only c then dbg "fref bounds only for the short segment" l false else lret tt)))
      by (destruct (c_use_only c); reflexivity).
    rewrite R0. destruct (snd _) as [u|e]; [|reflexivity].
    rewrite run_bind, run_read, A, run_bind, run_ret, run_bind, run_lift. destruct (qmin (snd tv)); [|reflexivity].
    rewrite run_bind, run_lift. destruct (qmax (snd tv)); reflexivity.
  Qed.
  Lemma bounds_first l c m s s' b : run (get_fref_bounds sv pv l c m) s = (s', Ok b) ->
    exists tv, s_average s' = Some tv /\ cached_bounds l c tv = Ok b.
  Proof.
    intros H. destruct b as [lo hi]. assert (H' := H). apply bounds_inv in H'. destruct H' as (tv & E & _ & A).
    assert (A' : s_average s' = Some tv) by (rewrite E; reflexivity).
    exists tv. split; [exact A'|].
    destruct A as [A|[A G]].
    - rewrite (bounds_fixed l c m s tv A) in H. now injection H.
    - unfold get_fref_bounds in H. unfold cached_bounds.
      step H as u st E0.
      assert (st = s /\ exists u, snd (if c_use_only c then dbg "fref bounds only for the short segment" l false else lret tt) = Ok u).
      { destruct (c_use_only c).
        - rewrite run_log in E0. injection E0 as <- E0. split; [reflexivity|]. exists u. exact E0.
        - rewrite run_ret in E0. injection E0 as <- E0. split; [reflexivity|]. exists tt. reflexivity. }
      destruct H0 as [-> [u' ->]].
      step H as a0 st E1. rewrite run_read, A in E1. injection E1 as <- <-.
      step H as w st E1. rewrite (run_bind_val _ _ _ _ _ G) in E1. modified E1. rewrite run_ret in E1. injection E1 as <- <-.
      lifted H as lo' L. lifted H as hi' Hh. rewrite run_ret in H. rewrite L, Hh. cbn. injection H as _ <- <-. reflexivity.
  Qed.
  Notation ops_run := (run_ops ecc_of vzero vneg find_extrema sv pv rfit slope).
  Notation op_run := (run_op ecc_of vzero vneg find_extrema sv pv rfit slope).
  Lemma run_op_measure l c s : op_run l c Measure s = (RMeasure (snd (run (measure l c) s)), fst (run (measure l c) s)).
  Proof. unfold run_op, run. destruct (measure l c s) as [w [s' r]]. reflexivity. Qed.
  Lemma run_op_bounds l c m s : op_run l c (FrefBounds m) s =
    (RBounds (snd (run (get_fref_bounds sv pv l c m) s)), fst (run (get_fref_bounds sv pv l c m) s)).
  Proof. unfold run_op, run. destruct (get_fref_bounds sv pv l c m s) as [w [s' r]]. reflexivity. Qed.
  Lemma average_persists l c tr : c_ref c = TimeRef tr -> forall os s tv, ~ In Forget os -> s_average s = Some tv ->
    s_average (snd (ops_run l c os s)) = Some tv.
  Proof.
    intros E. induction os as [|o os IH]; intros s tv N A; [exact A|]. cbn [run_ops].
    destruct (op_run l c o s) as [y s1] eqn:O. destruct (ops_run l c os s1) as [ys s2] eqn:R. cbn [snd].
    change s2 with (snd (ys, s2)). rewrite <- R. apply IH; [intros I; apply N; now right|].
    destruct o as [|m|].
    - rewrite run_op_measure in O. injection O as _ <-. rewrite (keeps_average_measure l c tr E s). exact A.
    - rewrite run_op_bounds, (bounds_fixed _ _ _ _ _ A) in O. injection O as _ <-. exact A.
    - exfalso. apply N. now left.
  Qed.
  Lemma bounds_history l c tr : c_ref c = TimeRef tr -> forall os s, ~ In Forget os -> forall b,
    In (RBounds (Ok b)) (fst (ops_run l c os s)) ->
    exists tv, s_average (snd (ops_run l c os s)) = Some tv /\ cached_bounds l c tv = Ok b.
  Proof.
    intros E. induction os as [|o os IH]; intros s N b I; [destruct I|]. cbn [run_ops] in *.
    destruct (op_run l c o s) as [y s1] eqn:O.
    assert (N' : ~ In Forget os) by (intros X; apply N; now right).
    specialize (IH s1 N' b). assert (P := average_persists l c tr E os s1).
    destruct (ops_run l c os s1) as [ys s2] eqn:R. cbn [fst snd] in *.
    destruct I as [Iy|I]; [|auto]. subst y.
    destruct o as [|m|]; [rewrite run_op_measure in O; discriminate| |discriminate].
    rewrite run_op_bounds in O. injection O as O1 O2.
    destruct (run (get_fref_bounds sv pv l c m) s) as [s1' rb] eqn:RB. cbn [fst snd] in *. subst s1' rb.
    apply bounds_first in RB. destruct RB as (tv & A & C). exists tv. split; [|exact C]. now apply P.
  Qed.
  Lemma same_bounds l c tr os s b1 b2 : c_ref c = TimeRef tr -> ~ In Forget os ->
    In (RBounds (Ok b1)) (fst (ops_run l c os s)) -> In (RBounds (Ok b2)) (fst (ops_run l c os s)) -> b1 = b2.
  Proof.
    intros E N I1 I2. destruct (bounds_history l c tr E os s N b1 I1) as (tv1 & A1 & C1).
    destruct (bounds_history l c tr E os s N b2 I2) as (tv2 & A2 & C2).
    rewrite A1 in A2. apply Some_inj in A2. subst. rewrite C1 in C2. now apply Ok_inj in C2.
  Qed.
  (** Frequencies accepted after any number of get_fref_bounds calls. *)
  Lemma bounds_ops_average l c ms : forall s b, In (RBounds (Ok b)) (fst (ops_run l c (map FrefBounds ms) s)) ->
    exists tv, s_average (snd (ops_run l c (map FrefBounds ms) s)) = Some tv /\ cached_bounds l c tv = Ok b.
  Proof.
    assert (PS : forall ms s tv, s_average s = Some tv -> s_average (snd (ops_run l c (map FrefBounds ms) s)) = Some tv).
    { clear ms. induction ms as [|m ms IH]; intros s tv A; [exact A|]. cbn [map run_ops].
      rewrite run_op_bounds, (bounds_fixed _ _ _ _ _ A). cbn [fst snd].
      specialize (IH s tv A). now destruct (ops_run l c (map FrefBounds ms) s). }
    induction ms as [|m ms IH]; intros s b I; [destruct I|]. cbn [map run_ops] in *. rewrite run_op_bounds in *.
    destruct (run (get_fref_bounds sv pv l c m) s) as [s1 rb] eqn:RB. cbn [fst snd] in *.
    specialize (IH s1 b). assert (P := PS ms s1). destruct (ops_run l c (map FrefBounds ms) s1) as [ys s2]. cbn [fst snd] in *.
    destruct I as [I|I]; [|auto]. injection I as ->. apply bounds_first in RB. destruct RB as (tv & A & C). exists tv.
    split; [now apply P|exact C].
  Qed.
  Lemma cached_min_max l c tv lo hi : cached_bounds l c tv = Ok (lo, hi) -> min_max_over_2pi (snd tv) lo hi.
  Proof.
    unfold cached_bounds. destruct (snd _); [|discriminate]. intros H. inv_bind H. inv_bind H. apply Ok_inj in H. injection H as <- <-.
    apply qmin_ok in E. apply qmax_ok in E0. destruct E, E0. exists v, v0. repeat split; auto.
  Qed.
  Lemma accepted_in_bounds l c fr ms s lo hi s1 ys s' r : c_ref c = FreqRef fr ->
    ops_run l c (map FrefBounds ms) s = (ys, s1) -> In (RBounds (Ok (lo, hi))) ys ->
    run (measure l c) s1 = (s', Ok r) -> s_zero s' = Some false ->
    exists o, r_fref_out r = Some o /\ forall f, In f (entries o) -> (lo <= f < hi)%Q.
  Proof.
    intros RR R I H Z. destruct (bounds_ops_average l c ms s (lo, hi)) as (tv & A & C); [now rewrite R|].
    rewrite R in A. cbn [snd] in A. apply cached_min_max in C. apply bounds_of_intro in C.
    destruct (freq_measured l c fr s1 s' r RR H Z) as (_ & tv0 & tv1 & lo' & hi' & o & ts & _ & A' & B & _ & O & K & _).
    exists o. split; [exact O|]. intros f If. apply (keeps_exactly_in _ _ _ K) in If. destruct If as [_ [F1 F2]].
    destruct A' as [A'|[A' _]]; rewrite A in A'; [|discriminate]. apply Some_inj in A'. subst tv0.
    destruct C as (a1 & b1 & Ia & Ib & M & L1 & H1). destruct B as (a2 & b2 & Ia2 & Ib2 & M2 & L2 & H2).
    assert (EA : (a1 == a2)%Q) by (apply Qle_antisym; [apply M; auto|apply M2; auto]).
    assert (EB : (b1 == b2)%Q) by (apply Qle_antisym; [apply M2; auto|apply M; auto]).
    rewrite L1, H1, EA, EB. rewrite <- L2, <- H2. split; assumption.
  Qed.

  (** ** C05: histories at different debug levels *)
  Lemma levels_history l c : quiet l -> forall os s, ops_run l c os s = ops_run 0 c os s.
  Proof.
    intros Ql. induction os as [|o os IH]; intros s; [reflexivity|]. cbn [run_ops].
    assert (E : op_run l c o s = op_run 0 c o s).
    { destruct o as [|m|]; [| |reflexivity].
      - rewrite !run_op_measure. rewrite (proj1 (ani_measure ecc_of vzero vneg find_extrema sv pv rfit slope c l s) Ql). reflexivity.
      - rewrite !run_op_bounds. rewrite (proj1 (ani_bounds sv pv c m l s) Ql). reflexivity. }
    rewrite E. destruct (op_run 0 c o s) as [y s1]. now rewrite IH.
  Qed.
  Definition no_exception (y : reply V) : Prop :=
    match y with RMeasure (Err _) => False | RBounds (Err _) => False | _ => True end.
  Lemma levels_history_ok l c : forall os s, (forall y, In y (fst (ops_run l c os s)) -> no_exception y) ->
    ops_run 0 c os s = ops_run l c os s.
  Proof.
    induction os as [|o os IH]; intros s H; [reflexivity|]. cbn [run_ops] in *.
    destruct (op_run l c o s) as [y s1] eqn:O. specialize (IH s1). destruct (ops_run l c os s1) as [ys s2]. cbn [fst] in *.
    assert (E : op_run 0 c o s = (y, s1)).
    { specialize (H y (or_introl eq_refl)). destruct o as [|m|]; [| |exact O].
      - rewrite run_op_measure in *. injection O as <- <-. destruct (run (measure l c) s) as [s' [v|e]] eqn:R; [|destruct H].
        rewrite (proj2 (ani_measure ecc_of vzero vneg find_extrema sv pv rfit slope c l s) s' v R). reflexivity.
      - rewrite run_op_bounds in *. injection O as <- <-. destruct (run (get_fref_bounds sv pv l c m) s) as [s' [v|e]] eqn:R; [|destruct H].
        rewrite (proj2 (ani_bounds sv pv c m l s) s' v R). reflexivity. }
    rewrite E, IH; [reflexivity|]. intros y' I. apply H. now right.
  Qed.

  (** ** C32: measuring again with the same object *)
  Definition indep {A} (m : act A) : Prop := forall s1 s2,
    snd (run m s1) = snd (run m s2) /\ s_decc (fst (run m s1)) = s_decc s1.
  Definition stable {A} (m : act A) : Prop := forall s1 s2,
    (s_decc s2 = s_decc s1 \/ s_decc s2 = s_decc (fst (run m s1))) ->
    snd (run m s2) = snd (run m s1) /\ s_decc (fst (run m s2)) = s_decc (fst (run m s1)).
  Lemma indep_stable {A} (m : act A) : indep m -> stable m.
  Proof.
    intros H s1 s2 D. destruct (H s1 s2) as [E1 E2]. destruct (H s2 s1) as [E3 E4].
    split; [auto|]. rewrite E4, E2. destruct D as [D|D]; [exact D|]. now rewrite D, E2.
  Qed.
  Lemma indep_lift {A} (r : res A) : indep (alift r). Proof. intros s1 s2. split; reflexivity. Qed.
  Lemma indep_ret {A} (r : A) : indep (aret r). Proof. intros s1 s2. split; reflexivity. Qed.
  Lemma indep_log {A} (r : lg A) : indep (alog r). Proof. intros s1 s2. split; reflexivity. Qed.
  Lemma indep_mod f : (forall s, s_decc (f s) = s_decc s) -> indep (amod f). Proof. intros H s1 s2. split; [reflexivity|apply H]. Qed.
  Lemma indep_bind {A B} (m : act A) (k : A -> act B) : indep m -> (forall a, indep (k a)) -> indep (abind m k).
  Proof.
    intros Hm Hk s1 s2. rewrite !run_bind. destruct (Hm s1 s2) as [E1 E2].
    destruct (run m s1) as [t1 r1]. destruct (run m s2) as [t2 r2]. cbn in E1, E2. subst r2.
    destruct r1 as [a|e]; [|split; [reflexivity|exact E2]]. destruct (Hk a t1 t2) as [F1 F2]. split; [exact F1|congruence].
  Qed.
  Lemma stable_bind {A B} (m : act A) (k : A -> act B) : indep m -> (forall a, stable (k a)) -> stable (abind m k).
  Proof.
    intros Hm Hk s1 s2. rewrite !run_bind. destruct (Hm s1 s2) as [E1 E2]. destruct (Hm s2 s1) as [_ E3].
    destruct (run m s1) as [t1 r1]. destruct (run m s2) as [t2 r2]. cbn in E1, E2, E3. subst r2.
    destruct r1 as [a|e]; cbn; intros D.
    - apply Hk. rewrite E3, E2. exact D.
    - split; [reflexivity|]. rewrite E3, E2. destruct D as [D|D]; [exact D|]. now rewrite D, E2.
  Qed.
  Lemma stable_bind_r {A B} (m : act A) (k : A -> act B) : stable m -> (forall a, indep (k a)) -> stable (abind m k).
  Proof.
    intros Hm Hk s1 s2. specialize (Hm s1 s2). rewrite !run_bind.
    destruct (run m s1) as [t1 r1]. destruct (run m s2) as [t2 r2]. cbn [fst snd] in *. 
    destruct r1 as [a|e]; intros D.
    - assert (D' : s_decc s2 = s_decc s1 \/ s_decc s2 = s_decc t1).
      { destruct D as [D|D]; [now left|right]. rewrite D. apply (Hk a t1 t1). }
      destruct (Hm D') as [E1 E2]. subst r2. destruct (Hk a t1 t2) as [F1 F2]. destruct (Hk a t2 t1) as [_ F3].
      split; [auto|congruence].
    - destruct (Hm D) as [E1 E2]. subst r2. auto.
  Qed.
  Ltac indep_step :=
    first [ apply indep_lift | apply indep_ret | apply indep_log | apply indep_mod; reflexivity
          | apply indep_bind; [|intros ?]
          | match goal with
            | |- indep (if ?b then _ else _) => destruct b
            | |- indep (match ?x with _ => _ end) => destruct x
            end ].
  Definition check_value (c : config) fp fa lo hi tc : res (list bool) :=
    do _ <- check_input_limits tc lo hi;
    do e <- compute_eccentricity ecc_of fp fa lo hi tc;
    do _ <- fst (get_interpolant tc (map (fun _ => 0%Q) e) false "spline" (Some (c_general c)));
    Ok (slope tc e).
  Definition check_tail (l : Z) (d : list bool) : res unit :=
    if existsb (fun b => b) d then snd (dbg "egw(t) is nonmonotonic" l true) else Ok tt.
  Lemma run_check l c fp fa lo hi tc s : run (check_ecc_monotone ecc_of slope l c fp fa lo hi tc) s =
    match s_decc s with
    | Some d => (s, check_tail l d)
    | None => match check_value c fp fa lo hi tc with
              | Ok d => (set_decc (Some d) s, check_tail l d)
              | Err e => (s, Err e) end
    end.
  Proof.
    unfold check_ecc_monotone, check_value, check_tail. rewrite run_bind, run_read. destruct (s_decc s) as [d|].
    - rewrite run_bind, run_ret. destruct (existsb _ d); [rewrite run_log|]; reflexivity.
    - rewrite run_bind, run_bind, run_lift. destruct (check_input_limits tc lo hi); [|reflexivity].
      rewrite run_bind, run_lift. destruct (compute_eccentricity ecc_of fp fa lo hi tc) as [e|]; [|reflexivity].
      rewrite run_bind, run_lift. cbn [bind]. destruct (fst (get_interpolant _ _ _ _ _)); [|reflexivity].
      cbn [bind]. rewrite run_bind. change (run (amod (set_decc (Some (slope tc e)))) s) with (set_decc (Some (slope tc e)) s, Ok tt).
      cbv beta iota. rewrite run_ret. destruct (existsb _ _); reflexivity.
  Qed.
  Lemma stable_check l c fp fa lo hi tc : stable (check_ecc_monotone ecc_of slope l c fp fa lo hi tc).
  Proof.
    intros s1 s2. rewrite !run_check. destruct (s_decc s1) as [d|] eqn:D1.
    - cbn [fst]. rewrite D1. intros [D|D]; rewrite D; cbn; split; auto; congruence.
    - destruct (check_value c fp fa lo hi tc) as [d|e]; cbn.
      + intros [D|D]; rewrite D; cbn; auto.
      + rewrite D1. intros [D|D]; rewrite D; cbn; auto; split; congruence.
  Qed.
  Lemma stable_mod_curves {A} fp (m : option curve * option curve -> act A) :
    (forall x, stable (m x)) -> (forall x y, m x = m y) ->
    stable (cs <~ aread s_curves ;; _ <~ amod (set_curves (Some fp, snd cs)) ;; m cs).
  Proof.
    intros H E s1 s2. rewrite !run_bind, !run_read, !run_bind.
    change (run (amod (set_curves (Some fp, snd (s_curves s1)))) s1) with (set_curves (Some fp, snd (s_curves s1)) s1, Ok tt).
    change (run (amod (set_curves (Some fp, snd (s_curves s2)))) s2) with (set_curves (Some fp, snd (s_curves s2)) s2, Ok tt).
    cbv beta iota. rewrite (E (s_curves s2) (s_curves s1)). intros D. apply H. exact D.
  Qed.
  Lemma indep_curve l c np na tc loc : c_interp c = SplineMethod -> indep (extrema_curve sv pv rfit l c np na tc loc).
  Proof. intros E. unfold extrema_curve. rewrite E. repeat indep_step. Qed.
  Lemma stable_from l c p a tr : c_interp c = SplineMethod -> c_ref c = TimeRef tr -> stable (from_extrema l c p a).
  Proof.
    intros E R. unfold measure_from_extrema. rewrite R. cbv zeta.
    repeat first [ apply stable_mod_curves; [intros ?|reflexivity]
                 | apply stable_bind_r; [apply stable_check|intros ?; repeat indep_step]
                 | apply stable_bind; [first [now apply indep_curve|repeat indep_step; fail]|intros ?]
                 | apply indep_stable; repeat indep_step; fail ].
  Qed.
  Lemma stable_measure l c tr : c_interp c = SplineMethod -> c_ref c = TimeRef tr -> stable (measure l c).
  Proof.
    intros E R. unfold measure_ecc.
    repeat first [ now apply (stable_from l c _ _ tr)
                 | apply stable_bind; [repeat indep_step; fail|intros ?]
                 | match goal with |- stable (if ?b then _ else _) => destruct b
                                 | |- stable (match ?b with _ => _ end) => destruct b end
                 | apply indep_stable; repeat indep_step; fail ].
  Qed.
  Lemma measure_again l c tr s s' r : c_interp c = SplineMethod -> c_ref c = TimeRef tr ->
    run (measure l c) s = (s', r) -> snd (run (measure l c) s') = r.
  Proof.
    intros E R H. assert (S := stable_measure l c tr E R s s'). rewrite H in S. now apply S; right.
  Qed.

  (** ** statements used by the property file *)
  Lemma time_result l c tr s s' r : c_ref c = TimeRef tr -> run (measure l c) s = (s', Ok r) -> s_zero s' = Some false ->
    exists p a tp ta lo hi o,
      s_peri s' = Some p /\ s_apo s' = Some a /\ samples_at (c_t c) p tp /\ samples_at (c_t c) a ta /\
      common_window tp ta lo hi /\ s_window s' = Some (lo, hi) /\
      r_tref_out r = Some o /\ keeps_exactly (within lo hi) tr (entries o) /\ entries o <> [] /\
      length (entries (r_eccentricity r)) = length (entries o) /\
      length (entries (r_mean_anomaly r)) = length (entries o).
  Proof.
    intros R H Z. destruct (measured l c s s' r H Z) as (p & a & tp & ta & lo & hi & fp & fa & ts & P & A & Sp & Sa & W & SW & SC & _ & _ & NE & IN & EE & MM & RR).
    rewrite R in RR. destruct RR as (K & o & O & <-). apply Forall2_len in EE.
    exists p, a, tp, ta, lo, hi, o. repeat (split; [assumption|]). split; [auto|]. rewrite MM. apply map_length.
  Qed.
  Lemma no_extrapolation l c s s' r : run (measure l c) s = (s', Ok r) -> s_zero s' = Some false ->
    exists p a tp ta fp fa ts, s_peri s' = Some p /\ s_apo s' = Some a /\
      samples_at (c_t c) p tp /\ samples_at (c_t c) a ta /\
      drawn_through sv rfit c p fp /\ drawn_through sv rfit c a fa /\
      (forall t, In t ts -> exists pf pl af al, first_is tp pf /\ last_is tp pl /\ first_is ta af /\ last_is ta al /\
          (pf <= t <= pl)%Q /\ (af <= t <= al)%Q) /\
      Forall2 (fun t e => exists wp wa, fp t = Ok wp /\ fa t = Ok wa /\ e = ecc_of wp wa) ts (entries (r_eccentricity r)) /\
      (forall tr, c_ref c = TimeRef tr -> exists o, r_tref_out r = Some o /\ ts = entries o).
  Proof.
    intros H Z. destruct (measured l c s s' r H Z) as (p & a & tp & ta & lo & hi & fp & fa & ts & P & A & Sp & Sa & W & SW & SC & D1 & D2 & NE & IN & EE & MM & RR).
    exists p, a, tp, ta, fp, fa, ts. repeat (split; [assumption|]).
    split; [intros t I; eapply window_inside; eauto|]. split; [exact EE|].
    intros tr R. rewrite R in RR. destruct RR as (_ & o & O & <-). eauto.
  Qed.
  Lemma mean_result l c s s' r : run (measure l c) s = (s', Ok r) -> s_zero s' = Some false ->
    exists p tp ts, s_peri s' = Some p /\ samples_at (c_t c) p tp /\
      (increasing tp -> Forall2 (mean_anomaly_is tp) ts (entries (r_mean_anomaly r))) /\
      (forall tr, c_ref c = TimeRef tr -> exists o, r_tref_out r = Some o /\ ts = entries o).
  Proof.
    intros H Z. destruct (measured l c s s' r H Z) as (p & a & tp & ta & lo & hi & fp & fa & ts & P & A & Sp & Sa & W & SW & SC & D1 & D2 & NE & IN & EE & MM & RR).
    exists p, tp, ts. repeat (split; [assumption|]). split.
    - intros I. rewrite MM. clear NE EE MM RR. induction ts as [|t ts IH]; cbn; constructor.
      + eapply mean_is; eauto. apply IN. now left.
      + apply IH. intros u Hu. apply IN. now right.
    - intros tr R. rewrite R in RR. destruct RR as (_ & o & O & <-). eauto.
  Qed.
  (** consequences of the formula *)
  Lemma mean_is_fun tp t m1 m2 : increasing tp -> mean_anomaly_is tp t m1 -> mean_anomaly_is tp t m2 -> (m1 == m2)%Q.
  Proof.
    assert (G : forall m, increasing tp -> mean_anomaly_is tp t m -> (m == mean_anomaly_at tp t)%Q).
    { intros m I [(i & a & b & A & B & C & ->)|(a & L & E & ->)].
      - symmetry. now apply (mean_between tp i).
      - symmetry. now apply (mean_last tp a). }
    intros I H1 H2. rewrite (G m1 I H1), (G m2 I H2). reflexivity.
  Qed.
  Lemma mean_range tp t m : increasing tp -> mean_anomaly_is tp t m ->
    (0 <= m < 2 * np_pi)%Q /\ ((m == 0)%Q <-> exists a, In a tp /\ (t == a)%Q).
  Proof.
    intros Inc [(i & a & b & A & B & [C1 C2] & E)|(a & [r ->] & E & M)].
    - assert (F0 : (0 <= (t - a) / (b - a))%Q) by (apply Qle_shift_div_l; lra).
      assert (F1 : ((t - a) / (b - a) < 1)%Q) by (apply Qlt_shift_div_r; lra).
      assert (P := np_pi_pos).
      split.
      + split; rewrite E.
        * apply Qmult_le_0_compat; [lra|exact F0].
        * setoid_replace (2 * np_pi)%Q with (2 * np_pi * 1)%Q at 2 by ring. apply Qmult_lt_l; [reflexivity|exact F1].
      + split.
        * intros Z. rewrite E in Z. apply Qmult_integral in Z. destruct Z as [Z|Z]; [discriminate|].
          exists a. split; [eapply nth_error_In; eauto|].
          assert (X : ((t - a) / (b - a) * (b - a) == t - a)%Q) by (field; lra). rewrite Z in X. lra.
        * intros (x & I & X). apply In_nth_error in I. destruct I as [j J].
          assert (Y : (x == a)%Q).
          { destruct (lt_eq_lt_dec i j) as [[L|L]|L].
            - assert ((b <= x)%Q); [|lra]. destruct (Nat.eq_dec j (S i)) as [->|N].
              + rewrite B in J. apply Some_inj in J. subst. lra.
              + apply Qlt_le_weak. apply (Inc (S i) j b x); auto. lia.
            - subst. rewrite A in J. apply Some_inj in J. now subst.
            - assert ((x < a)%Q) by (apply (Inc j i x a); auto). lra. }
          rewrite E. setoid_replace (t - a)%Q with 0%Q by lra. field. lra.
    - assert (P := np_pi_pos). split; [lra|]. split; [|auto]. intros _. exists a. split; [apply in_or_app; right; now left|exact E].
  Qed.
  Lemma mean_grows tp i a b t1 t2 m1 m2 : increasing tp -> nth_error tp i = Some a -> nth_error tp (S i) = Some b ->
    (a <= t1)%Q -> (t1 < t2)%Q -> (t2 < b)%Q ->
    mean_anomaly_is tp t1 m1 -> mean_anomaly_is tp t2 m2 -> (m1 < m2)%Q.
  Proof.
    intros Inc A B L1 L2 L3 H1 H2.
    assert (E1 : (m1 == 2 * np_pi * ((t1 - a) / (b - a)))%Q).
    { eapply mean_is_fun; eauto. left. exists i, a, b. repeat split; auto; lra. }
    assert (E2 : (m2 == 2 * np_pi * ((t2 - a) / (b - a)))%Q).
    { eapply mean_is_fun; eauto. left. exists i, a, b. repeat split; auto; lra. }
    rewrite E1, E2. apply Qmult_lt_l; [reflexivity|].
    apply Qlt_shift_div_l; [lra|]. setoid_replace ((t1 - a) / (b - a) * (b - a))%Q with (t1 - a)%Q by (field; lra). lra.
  Qed.
  Lemma mean_exists tp first last t : increasing tp -> first_is tp first -> last_is tp last -> (first <= t <= last)%Q ->
    mean_anomaly_is tp t (mean_anomaly_at tp t).
  Proof.
    intros Inc F L B. destruct (locate tp first last t Inc F L B) as [E|(i & x & y & A & B' & C)].
    - right. exists last. split; [exact L|]. split; [exact E|]. now apply (mean_last tp last).
    - left. exists i, x, y. repeat split; try tauto. now apply (mean_between tp i x y).
  Qed.
  Lemma mean_all_affine tp lo hi ts v a b first last : (0 < a)%Q -> increasing tp -> first_is tp first -> last_is tp last ->
    (first <= lo)%Q -> (hi <= last)%Q ->
    compute_mean_anomaly tp lo hi ts = Ok v ->
    exists v', compute_mean_anomaly (map (fun t => a * t + b)%Q tp) (a * lo + b) (a * hi + b) (map (fun t => a * t + b)%Q ts) = Ok v' /\
      Forall2 Qeq v v'.
  Proof.
    intros P Inc F L L1 L2 H. unfold compute_mean_anomaly in *. inv_bind H. destruct v0.
    apply Ok_inj in H. subst v.
    assert (W : forall t, In t ts -> within lo hi t) by (now apply limits_ok).
    assert (CL : check_input_limits (map (fun t => a * t + b)%Q ts) (a * lo + b) (a * hi + b) = Ok tt).
    { apply limits_ok. intros x I. apply in_map_iff in I. destruct I as (t & <- & I). destruct (W t I) as [W1 W2].
      assert ((a * lo <= a * t)%Q) by (apply Qmult_le_l; auto). assert ((a * t <= a * hi)%Q) by (apply Qmult_le_l; auto).
      split; lra. }
    rewrite CL. cbn [bind]. eexists. split; [reflexivity|]. rewrite map_map. clear E CL.
    induction ts as [|t ts IH]; cbn; constructor.
    - symmetry. destruct (W t (or_introl eq_refl)). apply (mean_affine tp first last); auto. split; lra.
    - apply IH. intros u Hu. apply W. now right.
  Qed.
  Lemma freq_result l c fr s s' r : c_ref c = FreqRef fr -> run (measure l c) s = (s', Ok r) -> s_zero s' = Some false ->
    exists used new lo hi o,
      s_average s' = Some new /\ (s_average s = Some used \/ s_average s = None /\ used = new) /\
      bounds_of (snd used) lo hi /\ r_fref_out r = Some o /\ keeps_exactly (in_range lo hi) fr (entries o) /\
      entries o <> [] /\ length (entries (r_eccentricity r)) = length (entries o).
  Proof.
    intros R H Z. destruct (freq_measured l c fr s s' r R H Z) as (_ & tv0 & tv & lo & hi & o & ts & A1 & A2 & A3 & A4 & A5 & A6 & A7 & A8 & A9 & _).
    exists tv0, tv, lo, hi, o. repeat (split; [assumption|]).
    apply Forall2_len in A9. apply interpolate_spline_safe in A8. destruct A8 as (_ & _ & _ & A8 & _). congruence.
  Qed.
  Lemma freq_increasing l c fr s s' r : c_ref c = FreqRef fr -> run (measure l c) s = (s', Ok r) -> s_zero s' = Some false ->
    exists ts ws, s_average s' = Some (ts, ws) /\ increasing ws /\ length ts = length ws /\
      (c_average c = "orbit_averaged_omega_gw"%string -> exists p a, s_peri s' = Some p /\ s_apo s' = Some a /\
         exists wp wa mp ma m, orbit_averages c p = Ok wp /\ orbit_averages c a = Ok wa /\
           average_times c p = Ok mp /\ average_times c a = Ok ma /\ increasing wp /\ increasing wa /\
           Permutation m (combine (ma ++ mp) (wa ++ wp)) /\ StronglySorted (fun x y => (fst x <= fst y)%Q) m /\ increasing (map snd m)).
  Proof.
    intros R H Z. destruct (freq_measured l c fr s s' r R H Z) as (_ & tv0 & [ts ws] & lo & hi & o & tr & A1 & A2 & A3 & A4 & A5 & A6 & A7 & A8 & A9 & s1 & B1 & B2 & B3 & B4 & G).
    exists ts, ws. cbn [snd fst] in *. split; [exact A1|]. split; [exact A4|]. split.
    { apply interpolate_spline_safe in A8. rewrite map_length in A8. destruct A8. auto. }
    intros AV. rewrite AV in G. unfold get_omega_gw_average, run_averaging in G. cbn [String.eqb Ascii.eqb Bool.eqb negb] in G. cbv zeta in G.
    step G as w st E.
    assert (K : st = s1) by (refine (keeps_run (fun x : state => x) _ s1 st (Ok w) _ E); repeat keeps_step).
    subst st. clear E.
    step G as v st2 E. step E as p st3 E3. rewrite run_read in E3. injection E3 as <- <-. lifted E as p' Ep.
    step E as a st4 E4. rewrite run_read in E4. injection E4 as <- <-. lifted E as a' Ea. rewrite run_lift in E. injection E as _ E.
    unfold attr in Ep, Ea. rewrite B1 in Ep. rewrite B2 in Ea.
    destruct (s_peri s') as [p|]; [|discriminate]. destruct (s_apo s') as [a|]; [|discriminate].
    apply Ok_inj in Ep, Ea. subst p' a'. exists p, a. split; [reflexivity|]. split; [reflexivity|].
    apply orbit_averaged_inv in E. destruct E as (wp & wa & tp & ta & m & X). exists wp, wa, tp, ta, m. tauto.
  Qed.
  Lemma freq_times l c fr s s' r : c_ref c = FreqRef fr -> run (measure l c) s = (s', Ok r) -> s_zero s' = Some false ->
    exists ts ws k o fp fa, s_average s' = Some (ts, ws) /\ s_curves s' = (Some fp, Some fa) /\ r_fref_out r = Some o /\
      Forall2 (fun f e => exists wp wa, let t := sv (map (fun w => w / (2 * np_pi))%Q ws) ts k f in
                 fp t = Ok wp /\ fa t = Ok wa /\ e = ecc_of wp wa) (entries o) (entries (r_eccentricity r)).
  Proof.
    intros R H Z. destruct (freq_measured l c fr s s' r R H Z) as (_ & tv0 & [ts ws] & lo & hi & o & tr & A1 & A2 & A3 & A4 & A5 & A6 & A7 & A8 & A9 & _).
    destruct (measured l c s s' r H Z) as (p & a & tp & ta & wl & wh & fp & fa & _ & _ & _ & _ & _ & _ & _ & SC & _).
    apply interpolate_spline_value in A8. destruct A8 as [k ->]. cbn [fst snd] in *.
    exists ts, ws, k, o, fp, fa. split; [exact A1|]. split; [exact SC|]. split; [exact A5|].
    clear -A9 SC. remember (entries o) as fs. clear Heqfs. remember (entries (r_eccentricity r)) as es. clear Heqes. revert es A9. induction fs as [|f fs IH]; intros es A9; inversion A9; subst; constructor.
    - destruct H1 as (wp & wa & fp' & fa' & SC' & E1 & E2 & ->). rewrite SC in SC'. injection SC' as <- <-. eauto.
    - apply IH. assumption.
  Qed.
End Results.
