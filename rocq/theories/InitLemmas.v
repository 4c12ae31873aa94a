(** Proofs about measure_eccentricity. *)
From Verif Require Import Base BaseLemmas UtilsModel UtilsSpec UtilsLemmas ExtremaModel RationalModel MeasureModel MeasureSpec LevelLemmas
  SegmentModel SegmentSpec SegmentLemmas DataModel DataSpec DataLemmas DataLemmas2 InitModel InitSpec.
Open Scope string_scope.
Open Scope nat_scope.

Section S.
  Context {C V : Type} (L : library C V).
  Notation world := (world C).

  (** ** the monad *)
  Lemma wbind_ok {A B} (m : W A) (k : A -> W B) (w w' : world) l b : wbind m k w = (w', (l, Ok b)) ->
    exists w1 l1 l2 a, m w = (w1, (l1, Ok a)) /\ k a w1 = (w', (l2, Ok b)) /\ l = (l1 ++ l2)%list.
  Proof.
    unfold wbind. cbv zeta. destruct (m w) as [w1 [l1 [a|e]]]; cbn; [|discriminate]. destruct (k a w1) as [w2 [l2 r]] eqn:E. cbn.
    intros H. injection H as <- <- ->. exists w1, l1, l2, a. auto.
  Qed.
  Lemma wstep_ok {A B} (m : W A) (k : A -> W B) (w w1 : world) a : m w = (w1, lret a) -> wbind m k w = k a w1.
  Proof. unfold wbind. cbv zeta. intros ->. cbn. destruct (k a w1) as [w2 [l2 r]]. reflexivity. Qed.
  Lemma wstep_err {A B} (m : W A) (k : A -> W B) (w w1 : world) l e : m w = (w1, (l, Err e)) -> wbind m k w = (w1, (l, Err e)).
  Proof. unfold wbind. cbv zeta. intros ->. reflexivity. Qed.
  Lemma wlift_ok {A} (r : res A) (w w' : world) l a : wlift r w = (w', (l, Ok a)) -> w' = w /\ l = [] /\ r = Ok a.
  Proof. unfold wlift, lift. intros H. injection H as <- <- ->. auto. Qed.
  Lemma wread_ok {A} (f : heap C -> res A) (w w' : world) l a : wread f w = (w', (l, Ok a)) -> w' = w /\ l = [] /\ f (wd_heap w) = Ok a.
  Proof. unfold wread, lift. intros H. injection H as <- <- ->. auto. Qed.
  Lemma wlog_ok {A} (r : lg A) (w w' : world) l a : wlog r w = (w', (l, Ok a)) -> w' = w /\ l = fst r /\ snd r = Ok a.
  Proof. unfold wlog. destruct r as [x y]. intros H. injection H as <- <- ->. auto. Qed.
  Lemma wret_ok {A} (x : A) (w w' : world) l a : wret x w = (w', (l, Ok a)) -> w' = w /\ l = [] /\ a = x.
  Proof. unfold wret, lret. intros H. injection H as <- <- ->. auto. Qed.

  Notation measure := (measure_eccentricity L).
  Lemma valid_in m : existsb (String.eqb m) available_methods = true <-> In m method_names.
  Proof.
    rewrite existsb_exists. change method_names with available_methods. split.
    - intros (x & Hx & E). apply String.eqb_eq in E. now subst.
    - intros H. exists m. split; [exact H|]. apply String.eqb_refl.
  Qed.

  (** ** C01, C02 *)
  Lemma method_rejected m a p (w : world) : ~ In m method_names -> measure m a p w = (w, ([], Err GenericException)).
  Proof.
    intros H. unfold measure_eccentricity. destruct (existsb _ _) eqn:E; [|reflexivity]. now apply valid_in in E.
  Qed.
  Lemma reference_ok t f rf : reference_of t f = Ok rf -> exactly_one t f /\
    rf = match t, f with
         | Some r, _ => (TimeRef (atleast_1d r), is_scalar r) | _, Some r => (FreqRef (atleast_1d r), is_scalar r)
         | _, _ => rf end.
  Proof.
    unfold exactly_one. destruct t, f; cbn; intros H; try discriminate; apply Ok_inj in H; subst; split; try reflexivity.
    - left. split; congruence.
    - right. split; congruence.
  Qed.
  Lemma reference_err t f : ~ exactly_one t f -> reference_of t f = Err KeyError.
  Proof.
    unfold exactly_one. destruct t, f; cbn; intros H; try reflexivity; elim H; [left|right]; split; congruence.
  Qed.
  Lemma init_reference a p (w : world) : ~ exactly_one (a_tref a) (a_fref a) -> init L a p w = (w, ([], Err KeyError)).
  Proof. intros H. unfold init. apply wstep_err. unfold wlift, lift. now rewrite reference_err. Qed.
  Lemma measure_init_err m a p (w w1 : world) l e : In m method_names -> init L a p w = (w1, (l, Err e)) ->
    measure m a p w = (w1, (l, Err e)).
  Proof.
    intros Hm H. unfold measure_eccentricity. replace (existsb _ _) with true by now apply eq_sym, valid_in.
    apply wstep_err. unfold build. now apply wstep_err.
  Qed.
  Lemma reference_rejected m a p (w : world) : In m method_names -> ~ exactly_one (a_tref a) (a_fref a) ->
    measure m a p w = (w, ([], Err KeyError)).
  Proof. intros Hm H. apply measure_init_err; [exact Hm|]. now apply init_reference. Qed.

  (** ** successful construction *)
  Definition filter_part (a : args) (pd : processed C) (gw : list Q * list Q * list Q) : W (filtered * option kwargs) :=
    if a_precessing a then filter_step L (p_t_merger C pd) (p_dict C pd)
    else fun w => (w, lret ({| fl_amp := fst (fst gw); fl_phase := snd (fst gw); fl_omega := snd gw;
                               fl_omega_filtered := false |}, wd_extra w)).
  Definition process (a : args) (p : nat) : M C (processed C) :=
    process_data_dict C (lib_abs L) (lib_phase L) (lib_polar L) (lib_rotate L) (lib_sqrt L)
      (a_level a) (a_precessing a) (a_frame a) (a_num a) p.
  Definition ref_is_time (r : reference) : bool := match r with TimeRef _ => true | FreqRef _ => false end.
  Definition ref_list (r : reference) : list Q := match r with TimeRef l => l | FreqRef l => l end.
  Definition residual_part (a : args) (h : heap C) (pd : processed C) (wv : wave) (g : spline_kwargs)
    : res (option residual * spline_kwargs) :=
    if smem (p_dict C pd) "amplm_zeroecc" && smem (p_dict C pd) "omegalm_zeroecc"
    then do x <- compute_residual L h (a_precessing a) (p_dict C pd) wv (p_t_merger C pd) g; Ok (Some (fst x), snd x)
    else Ok (None, g).
  Definition base_of (a : args) (rf : reference * bool) (pd : processed C) (t : list Q) (fl : filtered) (n : option Q) (wv : wave)
      (op : options) (rs : option residual * spline_kwargs) : base :=
    {| b_dict_keys := dkeys (p_dict C pd); b_wave := wv; b_t_merger := p_t_merger C pd; b_amp_merger := p_amp_merger C pd;
       b_extrema_kwargs := op_extrema op; b_fits_kwargs := op_fits op;
       b_config := {| c_t := w_t wv; c_data_t := t; c_phase := w_phase wv; c_omega := w_omega wv; c_ref := fst rf;
                      c_scalar := snd rf; c_precessing := a_precessing a; c_filtered := fl_omega_filtered fl;
                      c_midpoints := op_midpoints op; c_return_zero := op_return_zero op; c_interp := op_interp op;
                      c_average := op_average op;
                      c_use_only := match n with None => false | Some q => negb (Qeq_bool q 0) end;
                      c_special := op_special op; c_general := snd rs;
                      c_zeroecc := match fst rs with None => None | Some r => Some (rs_t r, rs_omega_zeroecc r) end |};
       b_degrees := op_degrees op; b_residual := fst rs; b_refine := op_refine op |}.
  (** everything a successful constructor went through *)
  Lemma init_ok a p (w w' : world) l b : init L a p w = (w', (l, Ok b)) ->
    exists rf pd t gw fl extra ek n wv op user rs l1 l2 h',
      reference_of (a_tref a) (a_fref a) = Ok rf /\ In (a_frame a) ["inertial"; "coprecessing"] /\
      process a p (wd_heap w) = (h', (l1, Ok pd)) /\
      slookup (p_dict C pd) "t" = Some (VArr C t) /\ check_uniform t = Ok tt /\
      get_amp_phase_omega_gw C h' (a_precessing a) (p_dict C pd) "" = Ok gw /\
      filter_part a pd gw {| wd_heap := h'; wd_extra := wd_extra w |} = (w', (l2, Ok (fl, extra))) /\
      wd_heap w' = h' /\
      check_kwargs_and_set_defaults extra default_extra = Ok ek /\
      (do v <- sget ek "use_only_these_many_orbits"; orbits_of v) = Ok n /\
      snd (use_segment (lib_secular L) (a_level a) n {| w_t := t; w_amp := fl_amp fl; w_phase := fl_phase fl; w_omega := fl_omega fl |}
             (ref_is_time (fst rf)) (ref_list (fst rf))) = Ok wv /\
      read_options ek (p_width C pd) = Ok op /\ is_dict h' p user /\
      snd (warn_unknown (a_level a) (dkeys user)) = Ok tt /\
      residual_part a h' pd wv (op_general op) = Ok rs /\
      b = base_of a rf pd t fl n wv op rs /\
      l = (l1 ++ l2 ++ fst (use_segment (lib_secular L) (a_level a) n {| w_t := t; w_amp := fl_amp fl; w_phase := fl_phase fl; w_omega := fl_omega fl |}
             (ref_is_time (fst rf)) (ref_list (fst rf))) ++ fst (warn_unknown (a_level a) (dkeys user)))%list.
  Proof.
    unfold init. intros H.
    apply wbind_ok in H. destruct H as (w1 & m1 & m1' & rf & E1 & H & ->). apply wlift_ok in E1. destruct E1 as (-> & -> & E1).
    apply wbind_ok in H. destruct H as (w2 & m2 & m2' & [] & E2 & H & ->). apply wlift_ok in E2. destruct E2 as (-> & -> & E2).
    destruct (existsb _ _) eqn:Hf in E2; [|discriminate]. apply existsb_exists in Hf. destruct Hf as (x & Hf & Ex). apply String.eqb_eq in Ex. subst x.
    apply wbind_ok in H. destruct H as (w3 & m3 & m3' & pd & E3 & H & ->).
    unfold on_heap in E3. cbv zeta in E3. fold (process a p) in E3. destruct (process a p (wd_heap w)) as [h' [l1 r1]] eqn:Ep. cbn in E3.
    injection E3 as <- <- ->.
    apply wbind_ok in H. destruct H as (w4 & m4 & m4' & t & E4 & H & ->). apply wlift_ok in E4. destruct E4 as (-> & -> & E4).
    apply wbind_ok in H. destruct H as (w5 & m5 & m5' & [] & E5 & H & ->). apply wlift_ok in E5. destruct E5 as (-> & -> & E5).
    apply wbind_ok in H. destruct H as (w6 & m6 & m6' & gw & E6 & H & ->). apply wread_ok in E6. destruct E6 as (-> & -> & E6).
    apply wbind_ok in H. destruct H as (w7 & l2 & m7' & [fl extra] & E7 & H & ->). fold (filter_part a pd gw) in E7.
    assert (Hh : wd_heap w7 = h').
    { clear -E7. unfold filter_part in E7. destruct (a_precessing a).
      - unfold filter_step in E7. cbv zeta in E7.
        apply wbind_ok in E7. destruct E7 as (v1 & ? & ? & ? & X1 & E & _). apply wlift_ok in X1. destruct X1 as (-> & _ & _).
        apply wbind_ok in E. destruct E as (v2 & ? & ? & ? & X2 & E & _). apply wlift_ok in X2. destruct X2 as (-> & _ & _).
        apply wbind_ok in E. destruct E as (v3 & ? & ? & ? & X3 & E & _).
        assert (wd_heap v3 = h').
        { cbn [wd_extra] in X3. destruct (wd_extra w); [destruct (slookup _ "filter_kwargs") as [[]|] in X3|]; cbn in X3; injection X3 as <- _ _; reflexivity. }
        apply wbind_ok in E. destruct E as (v4 & ? & ? & ? & X4 & E & _). apply wread_ok in X4. destruct X4 as (-> & _ & _).
        apply wbind_ok in E. destruct E as (v5 & ? & ? & ? & X5 & E & _). apply wlog_ok in X5. destruct X5 as (-> & _ & _).
        apply wbind_ok in E. destruct E as (v6 & ? & ? & ? & X6 & E & _).
        assert (wd_heap v6 = h').
        { cbn [wd_extra] in X6. destruct (wd_extra w); cbn in X6; injection X6 as <- _ _; auto. }
        apply wret_ok in E. destruct E as (-> & _). assumption.
      - injection E7 as <- _ _ _. reflexivity. }
    cbn [fst snd] in H.
    apply wbind_ok in H. destruct H as (w8 & m8 & m8' & ek & E8 & H & ->). apply wlift_ok in E8. destruct E8 as (-> & -> & E8).
    apply wbind_ok in H. destruct H as (w9 & m9 & m9' & n & E9 & H & ->). apply wlift_ok in E9. destruct E9 as (-> & -> & E9).
    apply wbind_ok in H. destruct H as (w10 & m10 & m10' & wv & E10 & H & ->). apply wlog_ok in E10. destruct E10 as (-> & -> & E10).
    apply wbind_ok in H. destruct H as (w11 & m11 & m11' & op & E11 & H & ->). apply wlift_ok in E11. destruct E11 as (-> & -> & E11).
    apply wbind_ok in H. destruct H as (w12 & m12 & m12' & user & E12 & H & ->). apply wread_ok in E12. destruct E12 as (-> & -> & E12).
    apply wbind_ok in H. destruct H as (w13 & m13 & m13' & [] & E13 & H & ->). apply wlog_ok in E13. destruct E13 as (-> & -> & E13).
    apply wbind_ok in H. destruct H as (w14 & m14 & m14' & rs & E14 & H & ->). apply wread_ok in E14. destruct E14 as (-> & -> & E14).
    apply wret_ok in H. destruct H as (-> & -> & ->).
    rewrite Hh in *.
    exists rf, pd, t, gw, fl, extra, ek, n, wv, op, user, rs, l1, l2, h'.
    repeat (split; [first [assumption | reflexivity]|]).
    split. { inv_bind E4. unfold sget, dget in E. fold (slookup (p_dict C pd) "t") in E. destruct (slookup _ _) eqn:Et in E; [|discriminate].
             apply Ok_inj in E. subst. destruct v; try discriminate. apply Ok_inj in E4. now subst. }
    repeat (split; [first [assumption | reflexivity]|]).
    split. { now apply top_ok. }
    repeat (split; [first [assumption | reflexivity]|]).
    cbn [app]. rewrite app_nil_r. reflexivity.
  Qed.

  (** ** the returned dictionary *)
  Lemma build_method m a p (w w' : world) l o : build L m a p w = (w', (l, Ok o)) -> o_method o = m /\
    exists w1 l1, init L a p w = (w1, (l1, Ok (o_base o))) /\ w' = w1.
  Proof.
    unfold build. intros H. apply wbind_ok in H. destruct H as (w1 & l1 & l2 & b & E & H & ->). cbv zeta in H.
    assert (X : o_method o = m /\ o_base o = b /\ w' = w1).
    { assert (P : forall data, wret {| o_method := m; o_base := b; o_data := data; o_fits := [] |} w1 = (w', (l2, Ok o)) ->
        o_method o = m /\ o_base o = b /\ w' = w1).
      { intros data X. apply wret_ok in X. destruct X as (-> & _ & ->). auto. }
      assert (F : forall am (data : res (list Q)),
        wbind (wlift (do u <- subdict (b_fits_kwargs b); check_kwargs_and_set_defaults u (default_fits am))) (fun fk =>
        wbind (wlift data) (fun data => wret {| o_method := m; o_base := b; o_data := data; o_fits := fk |})) w1 = (w', (l2, Ok o)) ->
        o_method o = m /\ o_base o = b /\ w' = w1).
      { intros am data X. apply wbind_ok in X. destruct X as (w2 & ? & ? & fk & X1 & X & ->). apply wlift_ok in X1. destruct X1 as (-> & -> & _).
        apply wbind_ok in X. destruct X as (w3 & ? & ? & dt & X2 & X & ->). apply wlift_ok in X2. destruct X2 as (-> & -> & _).
        apply wret_ok in X. destruct X as (-> & _ & ->). auto. }
      repeat (destruct (String.eqb m _) in H;
        [first [exact (P _ H) | exact (F _ _ H) | apply wbind_ok in H; destruct H as (w2 & ? & ? & r & X1 & H & ->); apply wlift_ok in X1;
          destruct X1 as (-> & -> & _); exact (P _ H)]|]).
      exact (F _ _ H). }
    destruct X as (X1 & X2 & ->). subst b. eauto.
  Qed.
  Lemma measure_ok m a p (w w' : world) l d : measure m a p w = (w', (l, Ok d)) ->
    In m method_names /\ exists o s r l1 l2, build L m a p w = (w', (l1, Ok o)) /\ o_method o = m /\
      measure_object L (a_level a) o = (l2, (s, Ok r)) /\ l = (l1 ++ l2)%list /\
      d = (return_dict r ++ [("gwecc_object", EObject o s)])%list.
  Proof.
    unfold measure_eccentricity. destruct (existsb _ _) eqn:Hm; [|discriminate]. apply valid_in in Hm. intros H. split; [exact Hm|].
    apply wbind_ok in H. destruct H as (w1 & l1 & l2 & o & E & H & ->). cbv zeta in H.
    destruct (measure_object L (a_level a) o) as [lo [s ro]] eqn:Eo. cbn [fst snd] in H.
    apply wbind_ok in H. destruct H as (w2 & l3 & l4 & r & E2 & H & ->). apply wlog_ok in E2. cbn [fst snd] in E2. destruct E2 as (-> & -> & ->).
    apply wret_ok in H. destruct H as (-> & -> & ->).
    exists o, s, r, l1, lo. split; [exact E|]. split; [apply (build_method m a p w _ _ _ E)|]. split; [exact Eo|]. split; [now rewrite app_nil_r|].
    unfold return_dict. destruct (r_tref_out r), (r_fref_out r); reflexivity.
  Qed.
  Lemma measure_result m a p (w w' : world) l d : measure m a p w = (w', (l, Ok d)) ->
    In m method_names /\ exists o s r l1 l2,
      build L m a p w = (w', (l1, Ok o)) /\ o_method o = m /\ measure_object L (a_level a) o = (l2, (s, Ok r)) /\ l = (l1 ++ l2)%list /\
      slookup d "gwecc_object" = Some (EObject o s) /\
      slookup d "eccentricity" = Some (EEcc (r_eccentricity r)) /\ slookup d "mean_anomaly" = Some (ERef (r_mean_anomaly r)) /\
      slookup d "tref_out" = option_map ERef (r_tref_out r) /\ slookup d "fref_out" = option_map ERef (r_fref_out r) /\
      (forall k, has d k -> In k ["eccentricity"; "mean_anomaly"; "tref_out"; "fref_out"; "gwecc_object"]) /\ NoDup (map fst d).
  Proof.
    intros H. apply measure_ok in H. destruct H as (Hm & o & s & r & l1 & l2 & H1 & H2 & H3 & H4 & ->). split; [exact Hm|].
    exists o, s, r, l1, l2. do 4 (split; [assumption|]). unfold return_dict, has.
    destruct (r_tref_out r), (r_fref_out r); cbn; repeat (split; [reflexivity|]); (split; [tauto|]);
      repeat (constructor; [cbn; intuition discriminate|]); constructor.
  Qed.

  (** ** C01 *)
  Lemma measure_one m a p (w w' : world) l d : measure m a p w = (w', (l, Ok d)) -> exactly_one (a_tref a) (a_fref a).
  Proof.
    intros H. apply measure_ok in H. destruct H as (_ & o & s & r & l1 & l2 & H & _). apply build_method in H.
    destruct H as (_ & w1 & l3 & H & _). apply init_ok in H. destruct H as (rf & pd & t & gw & fl & extra & ek & n & wv & op & user & rs & m1 & m2 & h' & H & _).
    apply reference_ok in H. apply H.
  Qed.

  (** ** frames *)
  Lemma frame_rejected m a p (w : world) : In m method_names -> exactly_one (a_tref a) (a_fref a) ->
    a_frame a <> "inertial" -> a_frame a <> "coprecessing" -> measure m a p w = (w, ([], Err ValueError)).
  Proof.
    intros Hm H1 H2 H3. apply measure_init_err; [exact Hm|]. unfold init.
    assert (exists rf, reference_of (a_tref a) (a_fref a) = Ok rf) as [rf Erf].
    { clear -H1. unfold exactly_one in H1. destruct (a_tref a), (a_fref a); cbn; eauto; intuition congruence. }
    rewrite (wstep_ok _ _ w w rf) by (unfold wlift, lift; now rewrite Erf).
    apply wstep_err. unfold wlift, lift. cbn. apply String.eqb_neq in H2. apply String.eqb_neq in H3. now rewrite H2, H3.
  Qed.

  (** ** uniform time steps *)
  Lemma nth_qdiff t : forall i, nth_error (qdiff t) i =
    match nth_error t i, nth_error t (S i) with Some x, Some y => Some (y - x)%Q | _, _ => None end.
  Proof.
    induction t as [|x t IH]; intros i; [destruct i; reflexivity|]. destruct t as [|y t]; [destruct i as [|[|i]]; reflexivity|].
    destruct i as [|i]; [reflexivity|]. change (qdiff (x :: y :: t)) with ((y - x)%Q :: qdiff (y :: t)). cbn [nth_error]. rewrite IH.
    reflexivity.
  Qed.
  Lemma uniform_ok t : check_uniform t = Ok tt <-> uniform_steps t.
  Proof.
    unfold check_uniform, uniform_steps. split.
    - intros H. inv_bind H. destruct (forallb _ _) eqn:F; [|discriminate]. apply get_ok in E. rewrite nth_qdiff in E.
      destruct (nth_error t 0) as [t0|] eqn:E0; [|discriminate]. destruct (nth_error t 1) as [t1|] eqn:E1; [|discriminate].
      injection E as <-. exists t0, t1. split; [reflexivity|]. split; [reflexivity|]. intros i x y Hx Hy.
      rewrite forallb_forall in F. assert (X : In (y - x)%Q (qdiff t)).
      { apply nth_error_In with i. rewrite nth_qdiff, Hx, Hy. reflexivity. }
      apply F in X. unfold close in X. now apply Qle_bool_iff in X.
    - intros (t0 & t1 & E0 & E1 & H). unfold get. rewrite nth_qdiff, E0, E1. cbn [bind].
      replace (forallb _ _) with true; [reflexivity|]. symmetry. apply forallb_forall. intros d Hd. apply In_nth_error in Hd.
      destruct Hd as [i Hd]. rewrite nth_qdiff in Hd. destruct (nth_error t i) eqn:Ex; [|discriminate].
      destruct (nth_error t (S i)) eqn:Ey; [|discriminate]. injection Hd as <-. unfold close. apply Qle_bool_iff. eauto.
  Qed.
  Lemma uniform_err t : 2 <= length t -> ~ uniform_steps t -> check_uniform t = Err GenericException.
  Proof.
    intros Hl H. rewrite <- uniform_ok in H. unfold check_uniform in *.
    destruct t as [|a [|b t]]; cbn in Hl; try lia. unfold get in *. rewrite nth_qdiff in *. cbn [nth_error bind] in *.
    destruct (forallb _ _); congruence.
  Qed.
  Lemma frame_in a : In (a_frame a) ["inertial"; "coprecessing"] -> existsb (String.eqb (a_frame a)) ["inertial"; "coprecessing"] = true.
  Proof. intros H. apply existsb_exists. exists (a_frame a). split; [exact H|]. apply String.eqb_refl. Qed.
  Lemma exactly_one_ref t f : exactly_one t f -> exists rf, reference_of t f = Ok rf.
  Proof. unfold exactly_one. destruct t, f; cbn; eauto; intuition congruence. Qed.
  Lemma steps_rejected m a p (w : world) h' l pd t : In m method_names -> exactly_one (a_tref a) (a_fref a) ->
    In (a_frame a) ["inertial"; "coprecessing"] -> process a p (wd_heap w) = (h', (l, Ok pd)) -> times_of (p_dict C pd) t ->
    2 <= length t -> ~ uniform_steps t ->
    measure m a p w = ({| wd_heap := h'; wd_extra := wd_extra w |}, (l, Err GenericException)).
  Proof.
    intros Hm H1 Hf Hp Ht Hl Hu. apply measure_init_err; [exact Hm|]. unfold init. destruct (exactly_one_ref _ _ H1) as [rf Erf].
    rewrite (wstep_ok _ _ w w rf) by (unfold wlift, lift; now rewrite Erf).
    rewrite (wstep_ok _ _ w w tt) by (unfold wlift, lift; rewrite frame_in by exact Hf; reflexivity).
    unfold wbind at 1. cbv zeta. unfold on_heap at 1 2 3 4 5. cbv zeta. fold (process a p). rewrite Hp. cbn [fst snd].
    match goal with |- context [wbind ?m ?k ?w] => replace (wbind m k w) with (w, (@nil string, @Err base GenericException)) end.
    { cbn. now rewrite app_nil_r. }
    symmetry. rewrite (wstep_ok _ _ _ {| wd_heap := h'; wd_extra := wd_extra w |} t).
    - apply wstep_err. unfold wlift, lift. now rewrite (uniform_err t Hl Hu).
    - unfold wlift, lift, lret, sget, dget. unfold times_of, slookup in Ht. rewrite Ht. reflexivity.
  Qed.
  Lemma steps_uniform m a p (w w' : world) l d o s : measure m a p w = (w', (l, Ok d)) -> slookup d "gwecc_object" = Some (EObject o s) ->
    uniform_steps (c_data_t (b_config (o_base o))).
  Proof.
    intros H E. apply measure_result in H. destruct H as (_ & o' & s' & r & l1 & l2 & H & _ & _ & _ & E' & _).
    rewrite E in E'. injection E' as <- <-. apply build_method in H. destruct H as (_ & w1 & l3 & H & _). apply init_ok in H.
    destruct H as (rf & pd & t & gw & fl & extra & ek & n & wv & op & user & rs & m1 & m2 & h' & _ & _ & _ & _ & Hu & _ & _ & _ & _ & _ & _ & _ & _ & _ & _ & Hb & _).
    rewrite Hb. cbn. now apply uniform_ok.
  Qed.
End S.
