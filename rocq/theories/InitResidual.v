(** Residual data (C36). *)
From Verif Require Import Base BaseLemmas UtilsModel UtilsSpec UtilsLemmas ExtremaModel RationalModel MeasureModel MeasureSpec LevelLemmas
  SegmentModel SegmentSpec SegmentLemmas DataModel DataSpec DataLemmas DataLemmas2 InitModel InitSpec InitLemmas.
Open Scope string_scope.
Open Scope nat_scope.

Section I.
  Variables (sv : list Q -> list Q -> nat -> Q -> Q) (pv : list Q -> list Q -> Q -> Q).
  (** interpolation that may extrapolate: inside the range of the points the value is that of the spline *)
  Lemma interpolate_inside newX oldX oldY g r : interpolate sv pv newX oldX oldY true "spline" (Some g) = Ok r ->
    length oldX = length oldY /\ increasing oldX /\ length r = length newX /\ exists k, forall i t, nth_error newX i = Some t ->
      exists v, nth_error r i = Some v /\
        forall lo hi, nth_error oldX 0 = Some lo -> nth_error oldX (length oldX - 1) = Some hi -> (lo <= t <= hi)%Q -> v = sv oldX oldY k t.
  Proof.
    unfold interpolate. destruct (Nat.eqb_spec (length oldY) (length oldX)) as [E|E]; cbn [negb]; [|discriminate].
    intros H. inv_bind H. clear E0. inv_bind H.
    apply get_interpolant_spline_ok in E0. cbn zeta in E0. destruct E0 as [H1 [H2 ->]].
    destruct (eval_all_map _ _ _ _ _ H) as [H3 H4]. split; [congruence|]. split; [exact H1|]. split; [exact H3|].
    eexists. intros i t Ht. destruct (H4 i t Ht) as [z [Hv Ev]]. exists z. split; [exact Hv|]. intros lo hi Hlo Hhi Hin.
    cbn [eval_interpolant] in Ev. apply bind_ok in Ev; destruct Ev as (u1 & G1 & Ev). apply bind_ok in Ev; destruct Ev as (u2 & G2 & Ev). apply get_ok in G1. apply last_of_nth in G2; destruct G2 as [G2 _].
    assert (u1 = lo) by congruence. assert (u2 = hi) by congruence. subst u1 u2.
    destruct (Qlt_bool t lo) eqn:B1; [apply Qlt_bool_iff in B1; lra|]. destruct (Qlt_bool hi t) eqn:B2; [apply Qlt_bool_iff in B2; lra|].
    cbn [orb] in Ev. apply Ok_inj in Ev. symmetry. exact Ev.
  Qed.
End I.

Section S.
  Context {C V : Type} (L : library C V).
  Lemma zip_half h d key f g (m : mdict (list Q)) u v r : (forall x y, g x y = f x y) -> modes_at C h d key = Ok m -> mget m (2, 2)%Z = Ok u -> mget m (2, -2)%Z = Ok v ->
    zip_with g u v = Ok r -> combined h d key f r.
  Proof.
    intros Hg Hm Hu Hv H. apply zip_ok in H. destruct H as [Hl ->]. exists u, v. split; [eapply real_array; eauto|]. split; [eapply real_array; eauto|].
    split; [exact Hl|]. split; [rewrite map2_length; lia|]. intros k x y Hx Hy. rewrite nth_error_map2, Hx, Hy. now rewrite Hg.
  Qed.
  Lemma zero_wave_ok h precessing d a p o : get_amp_phase_omega_gw C h precessing d "_zeroecc" = Ok (a, p, o) -> zero_wave h d precessing a o.
  Proof.
    unfold get_amp_phase_omega_gw, zero_wave. destruct precessing; cbn [negb append]; intros H.
    - apply bind_ok in H; destruct H as (am & Em & H). destruct (negb _); [discriminate|].
      apply bind_ok in H; destruct H as (pm & Ep & H). destruct (negb _); [discriminate|]. cbv zeta in H.
      apply bind_ok in H; destruct H as (a1 & E1 & H). apply bind_ok in H; destruct H as (a2 & E2 & H). apply bind_ok in H; destruct H as (aa & E3 & H).
      apply bind_ok in H; destruct H as (p1 & E4 & H). apply bind_ok in H; destruct H as (p2 & E5 & H). apply bind_ok in H; destruct H as (pp & E6 & H).
      apply bind_ok in H; destruct H as (om & Eo & H).
      apply bind_ok in H; destruct H as (o1 & E7 & H). apply bind_ok in H; destruct H as (o2 & E8 & H). apply bind_ok in H; destruct H as (oo & E9 & H).
      apply Ok_inj in H. injection H as <- <- <-. split.
      + eapply zip_half; try exact E3; eauto.
      + eapply zip_half; try exact E9; eauto.
    - apply bind_ok in H; destruct H as (am & Em & H). apply bind_ok in H; destruct H as (a1 & E1 & H).
      apply bind_ok in H; destruct H as (pm & Ep & H). apply bind_ok in H; destruct H as (p1 & E2 & H).
      apply bind_ok in H; destruct H as (om & Eo & H). apply bind_ok in H; destruct H as (o1 & E3 & H).
      apply Ok_inj in H. injection H as <- <- <-. split; eapply real_array; eauto.
  Qed.
  Lemma minus_ok t data x y g ai r : interpolate (lib_spline L) (lib_pchip L) t x y true "spline" (Some g) = Ok ai ->
    zip_with Qminus data ai = Ok r -> minus_spline (lib_spline L) x y t data r /\ increasing x.
  Proof.
    intros H1 H2. apply interpolate_inside in H1. destruct H1 as (A1 & A2 & A3 & k & A4). apply zip_ok in H2. destruct H2 as [B1 ->].
    split; [|exact A2]. unfold minus_spline. split; [exact A1|]. split; [rewrite map2_length; lia|]. split; [lia|]. exists k. intros i ti di Ht Hd.
    destruct (A4 i ti Ht) as (v & Hv & K). exists v. split; [|exact K]. rewrite nth_error_map2, Hd, Hv. reflexivity.
  Qed.
  Lemma compute_ok h precessing d w tm g r g2 : compute_residual L h precessing d w tm g = Ok (r, g2) ->
    exists tz az oz ms amp peak v,
      slookup d "t_zeroecc" = Some (VArr C tz) /\ uniform_steps tz /\ zero_wave h d precessing az oz /\ rs_omega_zeroecc r = oz /\
      modes_at C h d "amplm_zeroecc" = Ok ms /\ amplitude_using_all_modes C (lib_abs L) (lib_sqrt L) "amplm" (real_modes C ms) = Ok amp /\
      peak_time_via_quadratic_fit tz amp = Ok (peak, v) /\
      rs_t r = map (fun x => x - peak + tm)%Q tz /\ increasing (rs_t r) /\
      (forall x t, nth_error (rs_t r) 0 = Some x -> nth_error (w_t w) 0 = Some t -> (x <= t)%Q) /\
      (exists x, last_of (rs_t r) = Ok x /\ (tm <= x)%Q) /\
      minus_spline (lib_spline L) (rs_t r) az (w_t w) (w_amp w) (rs_amp r) /\ minus_spline (lib_spline L) (rs_t r) oz (w_t w) (w_omega w) (rs_omega r).
  Proof.
    unfold compute_residual. intros H.
    apply bind_ok in H; destruct H as (tz & Etz & H). apply bind_ok in H; destruct H as ([] & Eu & H).
    apply bind_ok in H; destruct H as ([[az pz] oz] & Egw & H). apply bind_ok in H; destruct H as (ms & Ems & H).
    apply bind_ok in H; destruct H as (amp & Eamp & H). apply bind_ok in H; destruct H as ([peak v] & Epk & H). cbv zeta in H. cbn [fst] in H.
    apply bind_ok in H; destruct H as (s0 & Es0 & H). apply bind_ok in H; destruct H as (t0 & Et0 & H).
    destruct (Qlt_bool t0 s0) eqn:B1; [discriminate|]. apply bind_ok in H; destruct H as (sn & Esn & H).
    destruct (Qlt_bool sn tm) eqn:B2; [discriminate|].
    apply bind_ok in H; destruct H as (ai & Eai & H). apply bind_ok in H; destruct H as (ra & Era & H).
    apply bind_ok in H; destruct H as (oi & Eoi & H). apply bind_ok in H; destruct H as (ro & Ero & H). apply Ok_inj in H. injection H as <- <-.
    cbn [rs_t rs_omega_zeroecc rs_amp rs_omega]. exists tz, az, oz, ms, amp, peak, v.
    split. { apply bind_ok in Etz. destruct Etz as (x & E1 & E2). unfold sget, dget in E1. fold (slookup d "t_zeroecc") in E1. destruct (slookup d "t_zeroecc"); [|discriminate]. apply Ok_inj in E1. subst.
             destruct x; try discriminate. apply Ok_inj in E2. now subst. }
    split; [now apply uniform_ok|]. split; [eapply zero_wave_ok; eauto|]. split; [reflexivity|]. split; [exact Ems|]. split; [exact Eamp|]. split; [exact Epk|].
    split; [reflexivity|]. destruct (minus_ok _ _ _ _ _ _ _ Eai Era) as [M1 I]. destruct (minus_ok _ _ _ _ _ _ _ Eoi Ero) as [M2 _].
    split; [exact I|]. split. { intros x t Hx Ht. apply get_ok in Es0, Et0. apply Qlt_bool_false in B1. congruence. }
    split. { exists sn. split; [exact Esn|]. now apply Qlt_bool_false in B2. }
    split; assumption.
  Qed.
  Lemma residual_found m a p (w w' : world C) l o : In m ["ResidualAmplitude"; "ResidualFrequency"] -> build L m a p w = (w', (l, Ok o)) ->
    exists pd l1 r op g2, process L a p (wd_heap w) = (wd_heap w', (l1, Ok pd)) /\ b_t_merger (o_base o) = p_t_merger C pd /\
      b_residual (o_base o) = Some r /\ o_data o = (if String.eqb m "ResidualAmplitude" then rs_amp r else rs_omega r) /\
      compute_residual L (wd_heap w') (a_precessing a) (p_dict C pd) (b_wave (o_base o)) (p_t_merger C pd) op = Ok (r, g2).
  Proof.
    intros Hm H. pose proof H as HB. apply build_method in HB. destruct HB as (_ & w1 & l1 & HI & <-).
    unfold build in H. apply wbind_ok in H. destruct H as (w1 & m1 & m2 & b & H1 & H & _). cbv zeta in H. rewrite HI in H1. injection H1 as <- <- Hb.
    assert (R : exists r0, residual_of b = Ok r0 /\ o_data o = (if String.eqb m "ResidualAmplitude" then rs_amp r0 else rs_omega r0)).
    { destruct Hm as [<- |[<- |[]]]; cbn [String.eqb Ascii.eqb Bool.eqb] in H |- *; apply wbind_ok in H; destruct H as (w2 & m3 & m4 & r0 & H & H2 & _);
        apply wlift_ok in H; destruct H as (_ & _ & H); apply wret_ok in H2; destruct H2 as (_ & _ & ->); eauto. }
    destruct R as [r0 [R Hd]]. unfold residual_of in R. destruct (forallb _ _) eqn:F; [|discriminate]. unfold attr in R.
    destruct (b_residual b) as [r1|] eqn:Er; [|discriminate]. apply Ok_inj in R. subst r1.
    assert (b = o_base o) by congruence. subst b.
    apply init_ok in HI. destruct HI as (rf & pd & t & gw & fl & extra & ek & n & wv & op & user & rs & k1 & k2 & h' & _ & _ & P & _ & _ & _ & _ & Hh & _ & _ & _ & _ & _ & _ & R & B & _).
    rewrite B in *. cbn [base_of b_residual b_wave b_t_merger] in *. rewrite Hh. unfold residual_part in R. destruct (_ && _).
    - apply bind_ok in R. destruct R as ([r1 g2] & R & R2). apply Ok_inj in R2. rewrite <- R2 in Er. cbn [fst] in Er. apply Some_inj in Er. subst r1.
      exists pd, k1, r0, (op_general op), g2. rewrite <- R2. auto 10.
    - apply Ok_inj in R. rewrite <- R in Er. discriminate.
  Qed.
  Lemma at_knot x y t data out : minus_spline (lib_spline L) x y t data out -> increasing x -> interpolating (lib_spline L) ->
    forall i j ti di xj yj, nth_error t i = Some ti -> nth_error data i = Some di -> nth_error x j = Some xj -> nth_error y j = Some yj ->
      (ti == xj)%Q -> exists v, nth_error out i = Some v /\ (v == di - yj)%Q.
  Proof.
    intros (L1 & L2 & L3 & k & M) I Hs i j ti di xj yj Ht Hd Hx Hy E. destruct (M i ti di Ht Hd) as (s & Ho & K). exists (di - s)%Q.
    split; [exact Ho|]. assert (Hj : j < length x) by (apply nth_error_Some; congruence).
    destruct (nth_error x 0) as [lo|] eqn:E0; [|apply nth_error_None in E0; lia].
    destruct (nth_error x (length x - 1)) as [hi|] eqn:E1; [|apply nth_error_None in E1; lia].
    assert (B : (lo <= ti <= hi)%Q).
    { assert (lo <= xj)%Q. { destruct (Nat.eq_dec j 0) as [-> |N]; [assert (lo = xj) by congruence; subst; apply Qle_refl|]. apply Qlt_le_weak, (I 0 j); auto; lia. }
      assert (xj <= hi)%Q. { destruct (Nat.eq_dec j (length x - 1)) as [-> |N]; [assert (hi = xj) by congruence; subst; apply Qle_refl|]. apply Qlt_le_weak, (I j (length x - 1)); auto; lia. }
      lra. }
    rewrite (K lo hi eq_refl eq_refl B). rewrite (Hs x y k j xj yj ti I L1 Hx Hy E). reflexivity.
  Qed.
  (** the segment used consists of samples of the waveform *)
  Lemma zslice_at {A B} (l : list A) (m : list B) a e i x : length l = length m -> nth_error (zslice l a e) i = Some x ->
    exists j, nth_error l j = Some x /\ nth_error m j = nth_error (zslice m a e) i.
  Proof.
    intros Hl. unfold zslice. rewrite Hl. rewrite !nth_error_slice. destruct (_ <? _) eqn:E; [|discriminate]. intros H. eexists. split; [exact H|reflexivity].
  Qed.
  Lemma segment_samples sec level n wv0 is_time ref wv : snd (use_segment sec level n wv0 is_time ref) = Ok wv ->
    wv = wv0 \/ exists s e, wv = cut_wave wv0 s e.
  Proof.
    unfold use_segment. destruct n as [n|]; [|cbn; intros H; apply Ok_inj in H; auto]. destruct (Qeq_bool n 0); [cbn; intros H; apply Ok_inj in H; auto|].
    unfold lbind, lift, dbg. cbn [fst snd]. destruct (last_of _); cbn [fst snd]; [|discriminate]. destruct (get _ 0); cbn [fst snd]; [|discriminate].
    destruct (Qle_bool _ _).
    - cbn [snd]. unfold segments. intros H. right.
      repeat (apply bind_ok in H; destruct H as (? & _ & H)). apply Ok_inj in H. eauto.
    - destruct (debug_message _ level true false); cbn; intros H; [apply Ok_inj in H; auto|discriminate].
  Qed.
  Lemma processed_same a p h h' l pd d0 : process L a p h = (h', (l, Ok pd)) -> a_precessing a = false -> a_num a = None ->
    is_dict h p d0 -> same_zeroecc d0 ->
    h' = h /\ slookup (p_dict C pd) "t_zeroecc" = slookup (p_dict C pd) "t" /\
    (forall ms, modes_at C h (p_dict C pd) "amplm_zeroecc" = Ok ms -> modes_at C h (p_dict C pd) "amplm" = Ok ms) /\
    (forall ms, modes_at C h (p_dict C pd) "omegalm_zeroecc" = Ok ms -> modes_at C h (p_dict C pd) "omegalm" = Ok ms) /\
    exists t ms amp v, slookup (p_dict C pd) "t" = Some (VArr C t) /\ modes_at C h (p_dict C pd) "amplm" = Ok ms /\
      amplitude_using_all_modes C (lib_abs L) (lib_sqrt L) "amplm" (real_modes C ms) = Ok amp /\
      peak_time_via_quadratic_fit t amp = Ok (p_t_merger C pd, v).
  Proof.
    intros H Hp Hn Hd0 Hs. unfold process in H. rewrite process_reads in H. rewrite Hp, Hn in H.
    apply mbind_ok in H. destruct H as [h1 [w1 [w2 [f [E [E2 _]]]]]].
    rewrite readw_eq in E. apply mbind_ok in E. destruct E as [h2 [w3 [w4 [d [E [E3 _]]]]]]. apply read_ok in E. destruct E as (-> & _ & E).
    apply top_ok in E. assert (d = d0) by (unfold is_dict in *; congruence). subst d.
    apply mbind_ok in E3. destruct E3 as [h3 [w5 [w6 [[] [E4 [E3 _]]]]]]. apply lift_ok in E4. destruct E4 as (-> & _ & _).
    rewrite (step_ok _ _ _ _ _ _ (chosen_plain C (lib_abs L) (lib_phase L) (lib_polar L) (lib_rotate L) (a_level a) false (a_frame a) p d0 h (or_introl eq_refl))) in E3.
    unfold rest in E3. apply mbind_ok in E3. destruct E3 as [h4 [w7 [w8 [t [X1 [E3 _]]]]]]. apply lift_ok in X1. destruct X1 as (-> & _ & X1).
    apply mbind_ok in E3. destruct E3 as [h5 [w9 [w10 [apo [X2 [E3 _]]]]]]. apply read_ok in X2. destruct X2 as (-> & _ & X2).
    apply read_ok in E3. destruct E3 as (-> & _ & E3).
    assert (Et : slookup d0 "t" = Some (VArr C t)). { destruct (slookup d0 "t") as [v|]; [|discriminate]. destruct v; try discriminate. apply Ok_inj in X1. now subst. }
    assert (Etz : slookup d0 "t_zeroecc" = Some (VArr C t)) by (rewrite <- Et; apply (Hs "t"); cbn; auto).
    rewrite Etz in E3. cbn [app] in E3.
    apply mbind_ok in E2. destruct E2 as [h6 [w11 [w12 [nd [X3 [E2 _]]]]]]. unfold truncate in X3. apply ret_ok in X3. destruct X3 as (-> & _ & ->).
    apply ret_ok in E2. destruct E2 as (-> & _ & ->). cbn [p_dict p_t_merger].
    split; [reflexivity|].
    pose proof E3 as E5. apply mdata_ok in E5. destruct E5 as (i & o & om & p0 & _ & _ & _ & _ & _ & _ & _ & _ & _ & D & _). rewrite D.
    unfold get_amp_phase_omega_data in X2. apply bind_ok in X2. destruct X2 as (am & Ea & X2). apply bind_ok in X2. destruct X2 as (pm & Ep & X2).
    cbv zeta in X2. apply bind_ok in X2. destruct X2 as (phm & Eph & X2). apply bind_ok in X2. destruct X2 as (ov & Eov & X2).
    apply bind_ok in X2. destruct X2 as (z & Ez & X2). apply Ok_inj in X2.
    apply amplm_shape in Ea. destruct Ea as (a1 & a2 & Ea1 & Ea2 & ->). apply phaselm_shape in Ep. destruct Ep as (p1 & p2 & Ep1 & Ep2 & ->).
    assert (a2 = a1).
    { unfold amplm_for in Ea1, Ea2. rewrite (Hs "amplm"), (Hs "hlm") in Ea2 by (cbn; auto). cbn [append] in Ea1.
      change ("amplm" ++ "")%string with "amplm" in Ea1. change ("hlm" ++ "")%string with "hlm" in Ea1.
      destruct (slookup d0 "amplm"); [congruence|]. destruct (slookup d0 "hlm"); [congruence|]. discriminate. }
    assert (p2 = p1).
    { unfold phaselm_for in Ep1, Ep2. rewrite (Hs "phaselm"), (Hs "hlm") in Ep2 by (cbn; auto). cbn [append] in Ep1.
      change ("phaselm" ++ "")%string with "phaselm" in Ep1. change ("hlm" ++ "")%string with "hlm" in Ep1.
      destruct (slookup d0 "phaselm"); [congruence|]. destruct (slookup d0 "hlm"); [congruence|]. discriminate. }
    subst a2 p2.
    assert (Hph : phm = p1). { destruct a1; cbn in Eph; apply Ok_inj in Eph; congruence. }
    assert (Z : z = [] \/ z = [("omegalm_zeroecc", ov)]).
    { pose proof (Hs "omegalm" ltac:(cbn; auto 6)) as Ho. change ("omegalm" ++ "_zeroecc")%string with "omegalm_zeroecc" in Ho. rewrite Ho in Ez. clear Ho. destruct (slookup d0 "omegalm") as [v|].
      - apply Ok_inj in Eov, Ez. subst. auto.
      - rewrite Etz in Ez. apply bind_ok in Eov. destruct Eov as (t' & G1 & Eov). unfold sget, dget in G1. fold (slookup d0 "t") in G1. rewrite Et in G1.
        cbn in G1. apply Ok_inj in G1. subst t'. apply bind_ok in Eov. destruct Eov as (ol & Eol & Eov). apply Ok_inj in Eov. subst ov phm.
        destruct p1 as [|q p1]; [left; destruct a1; cbn in Ez; apply Ok_inj in Ez; now subst|]. right.
        assert (Y : (do ph <- Ok (q :: p1); do t0 <- Ok t; do o0 <- get_omegalm_from_phaselm t0 ph; Ok [("omegalm_zeroecc", VReal C o0)]) = Ok z).
        { destruct a1; exact Ez. }
        cbn [bind] in Y. rewrite Eol in Y. cbn [bind] in Y. apply Ok_inj in Y. now subst. }
    clear Ez Eov Eph.
    unfold merger_data in E3. apply bind_ok in E3. destruct E3 as (ms & G1 & E3). apply bind_ok in E3. destruct E3 as (amp & G2 & E3).
    apply bind_ok in E3. destruct E3 as ([tm v] & G3 & E3). cbv zeta in E3. cbn [fst] in E3.
    assert (Htm : f_t_merger C f = tm).
    { repeat (apply bind_ok in E3; destruct E3 as (? & _ & E3); try match type of E3 with context [let (_, _) := ?x in _] => destruct x as [[? ?] ?] end).
      destruct (Qlt_bool _ _); [discriminate|]. destruct (Qlt_bool _ _); [discriminate|]. apply bind_ok in E3. destruct E3 as (? & _ & E3). apply Ok_inj in E3. now subst f. }
    clear E3. subst apo. rewrite Htm.
    split; [reflexivity|].
    split. { intros ms'. destruct a1; [|intros K; exact K]. destruct p1, Z as [-> | ->]; cbn; discriminate. }
    split. { intros ms'. destruct Z as [-> | ->]; [destruct a1, p1; cbn; discriminate|]. destruct a1, p1; intros K; exact K. }
    exists t, ms, amp, v. auto.
  Qed.
  Lemma array_modes h (d : sdict (dval C)) key m x : array_of h d key m x -> exists ms, modes_at C h d key = Ok ms /\ mget ms m = Ok x.
  Proof.
    intros (v & H & K). unfold modes_at, sget, dget. unfold slookup in H. rewrite H. cbn [bind]. unfold mget, dget.
    destruct K as [(ms & -> & K)|(q & ms & -> & K1 & K)].
    - exists ms. split; [reflexivity|]. now rewrite K.
    - exists ms. cbn [real_of]. rewrite K1. split; [reflexivity|]. now rewrite K.
  Qed.
  (** the zeroecc waveform given equals the waveform: the residuals are zero *)
  Lemma residual_zero m a p (w w' : world C) l o d0 : In m ["ResidualAmplitude"; "ResidualFrequency"] -> build L m a p w = (w', (l, Ok o)) ->
    a_precessing a = false -> a_num a = None -> is_dict (wd_heap w) p d0 -> same_zeroecc d0 -> interpolating (lib_spline L) ->
    length (o_data o) = length (w_t (b_wave (o_base o))) /\ forall x, In x (o_data o) -> (x == 0)%Q.
  Proof.
    intros Hm H Hp Hn Hd Hs Hi. pose proof H as HB. apply build_method in HB. destruct HB as (_ & w1 & l1 & HI & <-).
    apply residual_found in H; [|exact Hm]. destruct H as (pd & l2 & r & g & g2 & P & Htm & _ & Hdata & R).
    pose proof P as P0. eapply processed_same in P; eauto. destruct P as (Hh & T1 & A1 & O1 & t & ms & amp & v & T & Ms & Amp & Pk).
    rewrite Hh in R. apply compute_ok in R. rewrite Hp in R.
    destruct R as (tz & az & oz & ms' & amp' & peak & v' & Z1 & Z2 & Z3 & Z4 & Z5 & Z6 & Z7 & Z8 & Z9 & _ & _ & M1 & M2).
    assert (tz = t) by congruence. subst tz. apply A1 in Z5. assert (ms' = ms) by congruence. subst ms'. assert (amp' = amp) by congruence. subst amp'.
    rewrite Pk in Z7. apply Ok_inj in Z7. injection Z7 as <- <-.
    apply init_ok in HI. destruct HI as (rf & pd' & t' & gw & fl & extra & ek & n & wv & op & user & rs & k1 & k2 & h' & _ & _ & P & I1 & _ & I2 & I3 & I4 & _ & _ & I5 & _ & _ & _ & _ & B & _).
    assert (pd' = pd) by congruence. subst pd'. assert (h' = wd_heap w) by congruence. subst h'. assert (t' = t) by congruence. subst t'.
    unfold filter_part in I3. rewrite Hp in I3. injection I3 as _ _ <- _. cbn [fl_amp fl_phase fl_omega] in I5.
    rewrite Hp in I2. cbn [get_amp_phase_omega_gw negb append] in I2. unfold get_amp_phase_omega_gw in I2. cbn [negb] in I2.
    change ("amplm" ++ "")%string with "amplm" in I2. change ("phaselm" ++ "")%string with "phaselm" in I2. change ("omegalm" ++ "")%string with "omegalm" in I2.
    apply bind_ok in I2. destruct I2 as (am & Em & I2). apply bind_ok in I2. destruct I2 as (aa & Eaa & I2).
    apply bind_ok in I2. destruct I2 as (pm & Epm & I2). apply bind_ok in I2. destruct I2 as (pp & Epp & I2).
    apply bind_ok in I2. destruct I2 as (om & Eom & I2). apply bind_ok in I2. destruct I2 as (oo & Eoo & I2). apply Ok_inj in I2. subst gw. cbn [fst snd] in I5.
    destruct Z3 as [Z3a Z3o].
    assert (aa = az /\ oo = oz) as [-> ->].
    { apply array_modes in Z3a. destruct Z3a as (s1 & S1 & S2). apply A1 in S1. apply array_modes in Z3o. destruct Z3o as (s2 & S3 & S4). apply O1 in S3. split; congruence. }
    assert (W : b_wave (o_base o) = wv) by now rewrite B. rewrite W in *.
    pose proof M1 as (L1 & L2 & L3 & _). pose proof M2 as (L4 & L5 & L6 & _). rewrite Z8 in L1, L4. rewrite map_length in L1, L4.
    assert (S : forall (y y' : list Q) i ti di, (y = az /\ y' = w_amp wv) \/ (y = oz /\ y' = w_omega wv) -> nth_error (w_t wv) i = Some ti -> nth_error y' i = Some di ->
      exists j, nth_error t j = Some ti /\ nth_error y j = Some di).
    { intros y y' i ti di Hy Ht Hd'. apply segment_samples in I5. destruct I5 as [-> | (s & e & ->)]; cbn [w_t w_amp w_omega cut_wave] in *.
      - exists i. split; [exact Ht|]. destruct Hy as [[-> ->]|[-> ->]]; exact Hd'.
      - destruct Hy as [[-> ->]|[-> ->]]; rewrite <- Hd'; eapply zslice_at; eauto. }
    assert (K : forall y y' out, (y = az /\ y' = w_amp wv) \/ (y = oz /\ y' = w_omega wv) -> minus_spline (lib_spline L) (rs_t r) y (w_t wv) y' out ->
      length out = length (w_t wv) /\ forall x, In x out -> (x == 0)%Q).
    { intros y y' out Hy M. pose proof M as (N1 & N2 & N3 & _). split; [exact N2|]. intros x Hx. apply In_nth_error in Hx. destruct Hx as [i Hx].
      assert (i < length (w_t wv)) by (rewrite <- N2; apply nth_error_Some; congruence).
      destruct (nth_error (w_t wv) i) as [ti|] eqn:Eti; [|apply nth_error_None in Eti; lia].
      destruct (nth_error y' i) as [di|] eqn:Edi; [|apply nth_error_None in Edi; lia].
      destruct (S y y' i ti di Hy Eti Edi) as (j & Hj & Hyj).
      destruct (at_knot _ _ _ _ _ M Z9 Hi i j ti di (ti - p_t_merger C pd + p_t_merger C pd)%Q di Eti Edi) as (vv & V1 & V2).
      - rewrite Z8, nth_error_map, Hj. reflexivity.
      - exact Hyj.
      - ring.
      - assert (x = vv) by congruence. subst. rewrite V2. ring. }
    rewrite Hdata. destruct (String.eqb m "ResidualAmplitude"); [exact (K az _ _ (or_introl (conj eq_refl eq_refl)) M1) | exact (K oz _ _ (or_intror (conj eq_refl eq_refl)) M2)].
  Qed.
End S.

Lemma residual_shape {C V} (L : library C V) m a p w w' l o : In m ["ResidualAmplitude"; "ResidualFrequency"] ->
  build L m a p w = (w', (l, Ok o)) ->
  let wv := b_wave (o_base o) in
  exists pd l1, process_data_dict C (lib_abs L) (lib_phase L) (lib_polar L) (lib_rotate L) (lib_sqrt L)
      (a_level a) (a_precessing a) (a_frame a) (a_num a) p (wd_heap w) = (wd_heap w', (l1, Ok pd)) /\
  exists tz az oz ms amp peak v shifted,
    slookup (p_dict C pd) "t_zeroecc" = Some (VArr C tz) /\ uniform_steps tz /\
    zero_wave (wd_heap w') (p_dict C pd) (a_precessing a) az oz /\
    modes_at C (wd_heap w') (p_dict C pd) "amplm_zeroecc" = Ok ms /\
    amplitude_using_all_modes C (lib_abs L) (lib_sqrt L) "amplm" (real_modes C ms) = Ok amp /\
    peak_time_via_quadratic_fit tz amp = Ok (peak, v) /\
    shifted = map (fun x => x - peak + p_t_merger C pd)%Q tz /\ increasing shifted /\
    (forall x t, nth_error shifted 0 = Some x -> nth_error (w_t wv) 0 = Some t -> (x <= t)%Q) /\
    (exists x, last_of shifted = Ok x /\ (p_t_merger C pd <= x)%Q) /\
    if String.eqb m "ResidualAmplitude" then minus_spline (lib_spline L) shifted az (w_t wv) (w_amp wv) (o_data o)
    else minus_spline (lib_spline L) shifted oz (w_t wv) (w_omega wv) (o_data o).
Proof.
  intros Hm H. cbv zeta. apply residual_found in H; [|exact Hm]. destruct H as (pd & l2 & r & g & g2 & P & _ & _ & Hd & R).
  exists pd, l2. split; [exact P|]. apply compute_ok in R.
  destruct R as (tz & az & oz & ms & amp & peak & v & R1 & R2 & R3 & _ & R4 & R5 & R6 & R7 & R8 & R9 & R10 & M1 & M2).
  exists tz, az, oz, ms, amp, peak, v, (rs_t r). do 10 (split; [assumption|]). rewrite Hd. now destruct (String.eqb m _).
Qed.
