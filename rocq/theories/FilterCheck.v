(** Proofs about the decision to filter and the dictionary returned. *)
From Coq Require Import Lia Lqa Sorted.
From Verif Require Import Base BaseLemmas UtilsModel UtilsSpec ExtremaLemmas MeasureModel AverageLemmas SegmentModel SegmentLemmas DataModel DataSpec DataLemmas
  DataLemmas2 InitModel FitsSpec FitsClaims FilterModel FilterSpec FilterLemmas FilterCombine FilterSweep FilterApply.
Open Scope string_scope.
Open Scope nat_scope.

Lemma gather_values x idx v : gather x idx = Ok v -> values_at x idx v.
Proof.
  intros H. assert (L := gather_length _ _ _ H). split; [exact L|]. intros k i Hk.
  assert (k < length v) by (rewrite L; apply nth_error_Some; congruence). destruct (nth_error v k) as [a|] eqn:E; [|apply nth_error_None in E; lia].
  split; [|discriminate]. apply (gather_nth _ _ _ H) in E. destruct E as (i' & E1 & E2). congruence.
Qed.
Lemma mean_average l : l <> [] -> average l (mean_of l).
Proof.
  intros N. split; [exact N|]. assert (S : qsum l = fold_right Qplus 0%Q l) by (clear; induction l as [|a l IH]; cbn; congruence). rewrite <- S. unfold mean_of. field. destruct l; [congruence|]. intros H. cbn [length] in H. unfold Qeq in H. cbn in H. lia.
Qed.
Lemma last_two l x : last_of (qdiff l) = Ok x -> exists a b, nth_error l (length l - 2) = Some a /\ nth_error l (length l - 1) = Some b /\ x = (b - a)%Q /\ 2 <= length l.
Proof.
  intros H. apply last_of_nth in H. destruct H as [H N]. assert (Lq := qdiff_length l). rewrite Lq in H.
  apply qdiff_nth in H. destruct H as (a & b & A & B & E). assert (2 <= length l). { destruct (qdiff l); [congruence|]. cbn in Lq. lia. }
  exists a, b. replace (length l - 2) with (length l - 1 - 1) by lia. split; [exact A|]. split; [|split; [exact E|exact H]]. now replace (length l - 1) with (S (length l - 1 - 1)) by lia.
Qed.

Section Check.
  Variable F : fourier.
  Context {C : Type}.
  Implicit Types d : sdict (dval C).

  Lemma check_called_for t x y tm amp thr v : check_filter_requirement F t x y tm amp thr = Ok v -> called_for F t x y tm amp thr v.
  Proof.
    unfold check_filter_requirement. intros H. apply bind_ok in H; destruct H as (asym & Ea & H). apply bind_ok in H; destruct H as (trend & Et & H).
    apply bind_ok in H; destruct H as (residual & Er & H). apply bind_ok in H; destruct H as ([[tc tmid] dT] & Ec & H). cbn [snd] in H.
    apply bind_ok in H; destruct H as (gap & Eg & H). apply bind_ok in H; destruct H as (t1 & E1 & H). apply bind_ok in H; destruct H as (t0 & E0 & H).
    apply get_ok in E1, E0. destruct (Qeq_bool (t1 - t0) 0); [discriminate|]. cbv zeta in H. set (distance := q_int _) in H.
    destruct (Z.ltb_spec distance 1) as [|Hd]; [discriminate|]. apply bind_ok in H; destruct H as (rp & Erp & H). apply bind_ok in H; destruct H as (ap & Eap & H).
    apply bind_ok in H; destruct H as (rv & Erv & H). apply bind_ok in H; destruct H as (av & Eav & H).
    unfold pn_fit in Et. destruct (existsb _ t) eqn:Ex; [discriminate|].
    destruct (crossings_found _ _ _ _ _ _ Ec) as (idx & CT & L2 & _ & _).
    assert (Dq : dT = qdiff tc).
    { unfold find_intersection_points in Ec. apply bind_ok in Ec; destruct Ec as (df & _ & Ec). cbv zeta in Ec. destruct (_ <? _); [discriminate|].
      apply bind_ok in Ec; destruct Ec as (tc' & _ & Ec). apply Ok_inj in Ec. inversion Ec; subst. reflexivity. }
    subst dT. destruct (last_two tc gap Eg) as (ca & cb & A & B & EG & L3).
    exists trend, (match rv with [] => None | _ => Some (mean_of rv) end), (match av with [] => None | _ => Some (mean_of av) end).
    split.
    { intros s Hs. destruct (Qlt_le_dec s tm) as [|G]; [assumption|]. exfalso. apply Qle_bool_iff in G.
      assert (existsb (fun s => Qle_bool tm s) t = true) by (apply existsb_exists; eauto). congruence. }
    split; [exact Et|]. split.
    - exists idx, tc, ca, cb, t0, t1, residual, asym. repeat (split; [assumption|]). split; [|split; [|cbv zeta]].
      + apply zip_pointwise in Er. destruct Er as (R1 & R2 & R3). rewrite map_length in R1. split; [exact R1|]. split; [exact R2|].
        intros k a s Ha Hs. apply R3; [exact Ha|]. rewrite nth_error_map, Hs. reflexivity.
      + apply zip_pointwise in Ea. destruct Ea as (R1 & R2 & R3). unfold mirrored. split; [rewrite map_length; exact R1|]. split; [exact R2|].
        intros k a s Ha Hs. rewrite nth_error_map in Hs. destruct (nth_error y k) as [s'|] eqn:Ey; [|discriminate]. cbn in Hs. apply Some_inj in Hs. subst s. now apply R3.
      + rewrite <- EG. fold distance. split; [exact Hd|].
        split; [exists rp, rv|exists ap, av]; (split; [assumption|]); (split; [now apply gather_values|]).
        * destruct rv; [reflexivity|]. now apply mean_average.
        * destruct av; [reflexivity|]. now apply mean_average.
    - destruct rv as [|r0 rv]; [apply Ok_inj in H; subst; cbn; intuition discriminate|]. destruct av as [|a0 av]; [apply Ok_inj in H; subst; cbn; intuition discriminate|].
      cbn [exceeds]. destruct (Qeq_bool (mean_of (r0 :: rv)) 0) eqn:Z; apply Ok_inj in H; subst v.
      + apply Qeq_bool_iff in Z. rewrite Qlt_bool_iff. split; [intros; split; [auto|intros N; contradiction]|intros [X _]; auto].
      + apply Qeq_bool_neq in Z. rewrite Qlt_bool_iff. split; [intros; split; [intros N; contradiction|auto]|intros [_ X]; auto].
  Qed.

  Lemma pair_arrays d k a b : pair_at d k = Ok (a, b) -> array_of [] d k (2, 2)%Z a /\ array_of [] d k (2, -2)%Z b.
  Proof.
    unfold pair_at. intros H. apply bind_ok in H; destruct H as (m & Em & H). apply bind_ok in H; destruct H as (a' & Ea & H).
    apply bind_ok in H; destruct H as (b' & Eb & H). apply Ok_inj in H. inversion H; subst. split; eapply real_array; eauto.
  Qed.
  Lemma type_selected kw key amp c l : slookup kw key = Some l -> data_type_of amp l = Ok c -> selects kw key amp c.
  Proof.
    unfold data_type_of, selects. intros E H. rewrite E. destruct l; try discriminate.
    - apply Ok_inj in H. subst. auto.
    - right. destruct (String.eqb_spec s "amp") as [->|]; [apply Ok_inj in H; subst; reflexivity|].
      destruct (String.eqb_spec s "omega") as [->|]; [apply Ok_inj in H; subst; reflexivity|discriminate].
  Qed.
  Lemma options_read kw o : filter_options_of kw = Ok o ->
    slookup kw "filter_threshold" = Some (LNum (k_threshold o)) /\ slookup kw "alpha" = Some (LNum (k_alpha o)) /\
    slookup kw "segment_size" = Some (LNum (k_size o)) /\ slookup kw "data_type_for_filter_requirement_check" = Some (k_check o) /\
    slookup kw "data_type_for_fspin_estimate" = Some (k_fspin o) /\
    (exists v, slookup kw "do_not_filter" = Some v /\ k_skip o = leaf_truthy v) /\
    (exists v, slookup kw "padding_length" = Some (LNum v) /\ k_pad o = Qfloor v) /\ slookup kw "taper_width" = Some (LNum (k_taper o)) /\
    slookup kw "f_spin_lo_frac" = Some (LNum (k_s_lo o)) /\ slookup kw "f_spin_hi_frac" = Some (LNum (k_s_hi o)) /\
    slookup kw "fecc_lo_frac" = Some (LNum (k_e_lo o)) /\ slookup kw "fecc_hi_frac" = Some (LNum (k_e_hi o)).
  Proof.
    assert (N : forall k x, num_at kw k = Ok x -> slookup kw k = Some (LNum x)).
    { intros k x H. unfold num_at, sget, dget in H. fold (slookup kw k) in H. destruct (slookup kw k) as [v|]; [|discriminate]. cbn in H. destruct v; try discriminate. apply Ok_inj in H. congruence. }
    assert (S : forall k x, sget kw k = Ok x -> slookup kw k = Some x).
    { intros k x H. unfold sget, dget in H. fold (slookup kw k) in H. destruct (slookup kw k); [|discriminate]. congruence. }
    unfold filter_options_of. intros H. do 13 (apply bind_ok in H; destruct H as (? & ? & H)). apply Ok_inj in H. subst o.
    cbn. repeat split; eauto.
  Qed.

  (** the object for one type of data *)
  Lemma made d tag given kw o amp b : filter_options_of kw = Ok o -> snd (make_filter F d tag given o amp) = Ok b ->
    In tag [""; "_zeroecc"] /\ exists chk fsp x y u v,
      selects kw "data_type_for_filter_requirement_check" amp chk /\ selects kw "data_type_for_fspin_estimate" amp fsp /\
      ob_amp b = amp /\ times_of d (ob_t b) /\
      combined [] d (type_name amp ++ "lm" ++ tag) (fun p q => (1 # 2) * (p + (if amp then 1 else -1) * q))%Q (ob_data b) /\
      merger_time d tag (ob_t b) given (ob_t_merger b) /\
      array_of [] d (type_name chk ++ "lm" ++ tag) (2, 2)%Z x /\ array_of [] d (type_name chk ++ "lm" ++ tag) (2, -2)%Z y /\
      called_for F (ob_t b) x y (ob_t_merger b) chk (k_threshold o) (ob_required b) /\
      (ob_required b = true -> array_of [] d (type_name fsp ++ "lm" ++ tag) (2, 2)%Z u /\ array_of [] d (type_name fsp ++ "lm" ++ tag) (2, -2)%Z v /\
         exists idx tc tmid dT, crossing_times (ob_t b) u (map (fun q => q * (if fsp then 1 else -1))%Q v) idx tc /\ 5 <= length tc /\
           pairwise (fun p q => (p + q) / 2)%Q tc tmid /\ pairwise (fun p q => q - p)%Q tc dT /\ ob_delta_T b = fo_cubic F tmid dT).
  Proof.
    intros O H. apply options_read in O. destruct O as (_ & _ & _ & OC & OF & _).
    assert (TK : forall a, type_key a tag = type_name a ++ "lm" ++ tag) by (intros []; reflexivity).
    unfold make_filter in H. apply lbind_ok in H; destruct H as (fsp & Efs & H). apply lbind_ok in H; destruct H as (chk & Ech & H).
    apply lbind_ok in H; destruct H as (t & Et & H). apply lbind_ok in H; destruct H as ([p q] & Ep & H). apply lbind_ok in H; destruct H as (tm & Etm & H).
    apply lbind_ok in H; destruct H as (data & Ed & H). apply lbind_ok in H; destruct H as ([x y] & Ex & H). apply lbind_ok in H; destruct H as (req & Er & H).
    cbn [lift snd fst] in *. destruct (existsb (String.eqb tag) [""; "_zeroecc"]) eqn:Tg; [|discriminate].
    split.
    { apply existsb_exists in Tg. destruct Tg as (s & Hs & E). apply String.eqb_eq in E. now subst. }
    assert (T1 : times_of d t).
    { unfold times_of. apply bind_ok in Et; destruct Et as (v & Ev & Et). unfold sget, dget in Ev. fold (slookup d "t") in Ev.
      destruct (slookup d "t") as [v'|]; [|discriminate]. apply Ok_inj in Ev. subst v'. destruct v; try discriminate. apply Ok_inj in Et. congruence. }
    destruct (pair_arrays _ _ _ _ Ep) as [P1 P2]. destruct (pair_arrays _ _ _ _ Ex) as [X1 X2]. rewrite TK in P1, P2, X1, X2.
    assert (D1 : combined [] d (type_name amp ++ "lm" ++ tag) (fun p q => (1 # 2) * (p + (if amp then 1 else -1) * q))%Q data).
    { apply zip_pointwise in Ed. destruct Ed as (R1 & R2 & R3). exists p, q. auto 10. }
    assert (M1 : merger_time d tag t given tm).
    { destruct given as [g|]; cbn; [apply Ok_inj in Etm; auto|]. apply bind_ok in Etm; destruct Etm as ([a1 a2] & E1 & Etm). apply bind_ok in Etm; destruct Etm as (s & Es & Etm).
      apply bind_ok in Etm; destruct Etm as (i & Ei & Etm). apply get_ok in Etm. apply argmax_ok in Ei. destruct Ei as (m & I1 & I2 & _).
      destruct (pair_arrays _ _ _ _ E1) as [Q1 Q2]. exists s, i, m. split; [|split; [exact Etm|split; [exact I1|intros z Hz; apply In_nth_error in Hz; destruct Hz as (k & Hk); eauto]]].
      apply zip_pointwise in Es. destruct Es as (R1 & R2 & R3). exists a1, a2. auto 10. }
    apply check_called_for in Er. assert (SC := type_selected _ _ _ _ _ OC Ech). assert (SF := type_selected _ _ _ _ _ OF Efs).
    destruct req; cbn [negb] in H.
    - apply lbind_ok in H; destruct H as ([u v] & Eu & H). apply lbind_ok in H; destruct H as ([[tc tmid] dT] & Ec & H). cbn [lift snd fst] in *.
      apply lbind_ok in H; destruct H as ([] & _ & H). apply lbind_ok in H; destruct H as ([] & E4 & H). cbn [lift snd lret] in E4, H.
      apply Ok_inj in H. subst b. destruct (pair_arrays _ _ _ _ Eu) as [U1 U2]. rewrite TK in U1, U2.
      destruct (crossings_found _ _ _ _ _ _ Ec) as (idx & CT & L2 & PM & PD). destruct (Nat.ltb_spec (length tmid) 4) as [|L4]; [discriminate|].
      exists chk, fsp, x, y, u, v. cbn [ob_amp ob_t ob_data ob_t_merger ob_required ob_delta_T]. repeat (split; [assumption || reflexivity|]). exists idx, tc, tmid, dT. repeat (split; [assumption|]). split; [destruct PM; lia|]. auto.
    - cbn [lret snd] in H. apply Ok_inj in H. subst b. exists chk, fsp, x, y, p, q. cbn [ob_amp ob_t ob_data ob_t_merger ob_required ob_delta_T].
      repeat (split; [assumption || reflexivity|]). discriminate.
  Qed.

  Definition entries (base : string) (orig : list Q) (res : option (list Q * list segment)) : list (string * fentry) :=
    match res with
    | Some (y, segs) => [(base, FArr y); (base ++ "_original", FArr orig); (base ++ "_filtered", FArr y); (base ++ "_filter_segment_results", FSegments segs)]
    | None => [(base, FArr orig); (base ++ "_original", FArr orig); (base ++ "_filtered", FNone); (base ++ "_filter_segment_results", FNone)]
    end.
  Lemma one_ok fuel d tag given o amp es t : snd (filter_one F fuel d tag given o amp) = Ok (es, t) ->
    exists b res, snd (make_filter F d tag given o amp) = Ok b /\ t = ob_t b /\ es = entries (type_name amp ++ "_gw" ++ tag) (ob_data b) res /\
      match res with
      | Some x => ob_required b = true /\ k_skip o = false /\ apply_filter F fuel b o = Ok x
      | None => ob_required b = false \/ k_skip o = true
      end.
  Proof.
    unfold filter_one. intros H. apply lbind_ok in H; destruct H as (b & Eb & H). apply lbind_ok in H; destruct H as ([] & _ & H). exists b.
    assert (K : (if amp then "amp_gw" else "omega_gw") ++ tag = type_name amp ++ "_gw" ++ tag) by (destruct amp; reflexivity).
    cbv zeta in H. rewrite K in H. destruct (ob_required b) eqn:R, (k_skip o) eqn:S; cbn [andb negb] in H.
    - cbn in H. apply Ok_inj in H. exists None. inversion H; subst. auto.
    - apply lbind_ok in H; destruct H as ([y segs] & Ey & H). cbn in H. apply Ok_inj in H. exists (Some (y, segs)). inversion H; subst. auto 10.
    - cbn in H. apply Ok_inj in H. exists None. inversion H; subst. auto.
    - cbn in H. apply Ok_inj in H. exists None. inversion H; subst. auto.
  Qed.
  Lemma cumsum_steps y dt : accumulated y (map (fun x => x * dt)%Q (cumsum y)) dt.
  Proof.
    unfold cumsum. assert (L : forall y acc, length (cumsum_from acc y) = length y) by (clear; induction y as [|a y IH]; intros acc; cbn; [reflexivity|now rewrite IH]).
    split; [rewrite map_length; apply L|]. split.
    - destruct y as [|a y]; intros u v U V; [discriminate|]. cbn in U, V. apply Some_inj in U, V. subst. ring.
    - assert (G : forall y acc k a b c, nth_error y (S k) = Some a -> nth_error (cumsum_from acc y) k = Some b -> nth_error (cumsum_from acc y) (S k) = Some c -> (c == b + a)%Q).
      { clear. induction y as [|z y IH]; intros acc k a b c A B D; [destruct k; discriminate|]. cbn [cumsum_from] in *. cbn [nth_error] in A, D.
        destruct k as [|k]; [|cbn [nth_error] in B; eapply IH; eauto]. cbn in B. apply Some_inj in B. subst b. destruct y as [|z' y]; [discriminate|].
        cbn in A, D. apply Some_inj in A, D. subst. reflexivity. }
      intros k a b c A B D. rewrite nth_error_map in B, D. destruct (nth_error _ k) as [b'|] eqn:B'; [|discriminate]. destruct (nth_error (cumsum_from _ y) (S k)) as [c'|] eqn:D'; [|discriminate].
      cbn in B, D. apply Some_inj in B, D. subst b c. rewrite (G y 0%Q k a b' c' A B' D'). ring.
  Qed.

  (** the verdicts agree if the type to look at is prescribed *)
  Lemma same_verdict d tag given kw o b1 b2 s : filter_options_of kw = Ok o -> slookup kw "data_type_for_filter_requirement_check" = Some (LStr s) ->
    snd (make_filter F d tag given o true) = Ok b1 -> snd (make_filter F d tag given o false) = Ok b2 -> ob_required b1 = ob_required b2.
  Proof.
    intros O K H1 H2. apply options_read in O. destruct O as (_ & _ & _ & OC & _). assert (E : k_check o = LStr s) by congruence.
    assert (G : forall amp b, snd (make_filter F d tag given o amp) = Ok b -> exists chk t x y tm, data_type_of amp (LStr s) = Ok chk /\
       (do v <- sget d "t"; arr_of C v) = Ok t /\ pair_at d (type_key chk tag) = Ok (x, y) /\
       match given with Some x => Ok x | None => do q <- pair_at d (type_key true tag); do s <- zip_with Qplus (fst q) (snd q); do i <- argmax s; get t i end = Ok tm /\
       check_filter_requirement F t x y tm chk (k_threshold o) = Ok (ob_required b)).
    { intros amp b H. unfold make_filter in H. apply lbind_ok in H; destruct H as (fsp & Efs & H). apply lbind_ok in H; destruct H as (chk & Ech & H).
      apply lbind_ok in H; destruct H as (t & Et & H). apply lbind_ok in H; destruct H as ([p q] & Ep & H). apply lbind_ok in H; destruct H as (tm & Etm & H).
      apply lbind_ok in H; destruct H as (data & Ed & H). apply lbind_ok in H; destruct H as ([x y] & Ex & H). apply lbind_ok in H; destruct H as (req & Er & H).
      cbn [lift snd fst] in *. rewrite E in Ech. exists chk, t, x, y, tm. repeat (split; [assumption|]). rewrite Er. f_equal.
      destruct req; cbn [negb] in H; [|cbn in H; apply Ok_inj in H; subst; reflexivity].
      apply lbind_ok in H; destruct H as ([u v] & Eu & H). apply lbind_ok in H; destruct H as ([[tc tmid] dT] & Ec & H).
      apply lbind_ok in H; destruct H as ([] & _ & H). apply lbind_ok in H; destruct H as ([] & _ & H). cbn in H. apply Ok_inj in H. subst. reflexivity. }
    destruct (G _ _ H1) as (c1 & t1 & x1 & y1 & m1 & A1 & B1 & D1 & E1 & R1). destruct (G _ _ H2) as (c2 & t2 & x2 & y2 & m2 & A2 & B2 & D2 & E2 & R2).
    cbn [data_type_of] in A1, A2. assert (c2 = c1) by congruence. subst c2. assert (t2 = t1) by congruence. subst t2.
    assert (x2 = x1) by congruence. assert (y2 = y1) by congruence. assert (m2 = m1) by congruence. subst. congruence.
  Qed.

  (** ** the dictionary *)
  Definition base_keys (s tag : string) : list string :=
    let b := s ++ "_gw" ++ tag in [b; b ++ "_original"; b ++ "_filtered"].
  Lemma filter_result fuel d tag given kw w r : check_and_filter F fuel d tag given kw = (w, Ok r) ->
    exists o ba bo ra ro pho, filter_options_of kw = Ok o /\
      snd (make_filter F d tag given o true) = Ok ba /\ snd (make_filter F d tag given o false) = Ok bo /\
      outcome r ("amp_gw" ++ tag) (ob_data ba) ra /\ outcome r ("omega_gw" ++ tag) (ob_data bo) ro /\
      (forall b res, (b = ba /\ res = ra) \/ (b = bo /\ res = ro) ->
         match res with
         | Some x => ob_required b = true /\ k_skip o = false /\ apply_filter F fuel b o = Ok x
         | None => ob_required b = false \/ k_skip o = true
         end) /\
      combined [] d ("phaselm" ++ tag) (fun p q => (1 # 2) * (p - q))%Q pho /\ slookup r ("phase_gw" ++ tag ++ "_original") = Some (FArr pho) /\
      match ro with
      | Some (y, _) => exists t t0 t1 p, times_of d t /\ nth_error t 0 = Some t0 /\ nth_error t 1 = Some t1 /\ accumulated y p (t1 - t0) /\
                         slookup r ("phase_gw" ++ tag ++ "_filtered") = Some (FArr p) /\ slookup r ("phase_gw" ++ tag) = Some (FArr p)
      | None => slookup r ("phase_gw" ++ tag ++ "_filtered") = Some FNone /\ slookup r ("phase_gw" ++ tag) = Some (FArr pho)
      end /\
      NoDup (map fst r) /\
      (forall k, In k (map fst r) <-> In k (base_keys "amp" tag ++ base_keys "omega" tag ++ base_keys "phase" tag ++
         [("amp_gw" ++ tag ++ "_filter_segment_results")%string; ("omega_gw" ++ tag ++ "_filter_segment_results")%string])%list).
  Proof.
    intros H. apply (f_equal snd) in H. cbn [snd] in H. unfold check_and_filter in H. apply lbind_ok in H; destruct H as (o & Eo & H). cbn [lift snd] in Eo.
    apply lbind_ok in H; destruct H as ([ea ta] & Ea & H). apply lbind_ok in H; destruct H as ([eo to] & Eoo & H). cbn [fst snd] in H.
    apply lbind_ok in H; destruct H as ([p q] & Ep & H). apply lbind_ok in H; destruct H as (pho & Eph & H). apply lbind_ok in H; destruct H as (phase & Epp & H).
    cbn [lift snd fst] in *. apply one_ok in Ea. destruct Ea as (ba & ra & Ma & _ & -> & Ra). apply one_ok in Eoo. destruct Eoo as (bo & ro & Mo & -> & -> & Ro).
    destruct (made d tag given kw o true ba Eo Ma) as (Tg & _). destruct (made d tag given kw o false bo Eo Mo) as (_ & ? & ? & ? & ? & ? & ? & _ & _ & _ & TT & _).
    cbn [lret snd] in H. apply Ok_inj in H. exists o, ba, bo, ra, ro, pho. repeat (split; [assumption|]).
    assert (PH : combined [] d ("phaselm" ++ tag) (fun p q => (1 # 2) * (p - q))%Q pho).
    { destruct (pair_arrays _ _ _ _ Ep) as [P1 P2]. apply zip_pointwise in Eph. destruct Eph as (R1 & R2 & R3). exists p, q. auto 10. }
    assert (PF : match ro with
                 | Some (y, _) => exists t0 t1, get (ob_t bo) 1 = Ok t1 /\ get (ob_t bo) 0 = Ok t0 /\ phase = Some (map (fun x => x * (t1 - t0))%Q (cumsum y))
                 | None => phase = None end).
    { clear H. destruct Tg as [<-|[<-|[]]]; destruct ro as [[y segs]|]; cbn in Epp.
      1, 3: destruct (get (ob_t bo) 1) as [t1|]; [|discriminate]; destruct (get (ob_t bo) 0) as [t0|]; [|discriminate]; cbn in Epp; apply Ok_inj in Epp; eauto 10.
      all: apply Ok_inj in Epp; auto. }
    clear Epp Ep Eph.
    assert (RR : forall b res, (b = ba /\ res = ra) \/ (b = bo /\ res = ro) ->
         match res with
         | Some x => ob_required b = true /\ k_skip o = false /\ apply_filter F fuel b o = Ok x
         | None => ob_required b = false \/ k_skip o = true
         end) by (intros b res [[-> ->]|[-> ->]]; assumption).
    assert (FP : match ro with
      | Some (y, _) => exists t t0 t1 p, times_of d t /\ nth_error t 0 = Some t0 /\ nth_error t 1 = Some t1 /\ accumulated y p (t1 - t0) /\ phase = Some p
      | None => phase = None end).
    { destruct ro as [[y segs]|]; [|exact PF]. destruct PF as (t0 & t1 & G1 & G0 & ->). apply get_ok in G1, G0. exists (ob_t bo), t0, t1. eexists. repeat (split; [eassumption|]). split; [apply cumsum_steps|reflexivity]. }
    clear PF.
    assert (KK : map fst r = (map fst (entries ("amp_gw" ++ tag)%string [] None ++ entries ("omega_gw" ++ tag)%string [] None) ++
                 [(("phase_gw" ++ tag) ++ "_original")%string; (("phase_gw" ++ tag) ++ "_filtered")%string; ("phase_gw" ++ tag)%string])%list).
    { subst r. rewrite !map_app. destruct ra as [[? ?]|], ro as [[? ?]|]; destruct Tg as [<-|[<-|[]]]; reflexivity. }
    split; [subst r; destruct Tg as [<-|[<-|[]]]; destruct ra as [[? ?]|], ro as [[? ?]|]; split; cbn; auto|].
    split; [subst r; destruct Tg as [<-|[<-|[]]]; destruct ra as [[? ?]|], ro as [[? ?]|]; split; cbn; auto|].
    split; [exact RR|]. split; [exact PH|].
    split; [subst r; destruct Tg as [<-|[<-|[]]]; destruct ra as [[? ?]|], ro as [[? ?]|]; cbn; auto|].
    split.
    { destruct ro as [[y segs]|].
      - destruct FP as (t & t0 & t1 & pp & Q1 & Q2 & Q3 & Q4 & ->). exists t, t0, t1, pp. repeat (split; [assumption|]). subst r.
        destruct Tg as [<-|[<-|[]]]; destruct ra as [[? ?]|]; split; cbn; auto.
      - subst phase. subst r. destruct Tg as [<-|[<-|[]]]; destruct ra as [[? ?]|]; split; cbn; auto. }
    rewrite KK. split.
    - destruct Tg as [<-|[<-|[]]]; cbn; repeat constructor; cbn; intuition discriminate.
    - intros k. destruct Tg as [<-|[<-|[]]]; cbn; tauto.
  Qed.
End Check.
