(** Which extrema and which average a measurement uses. *)
From Coq Require Import Permutation.
From Verif Require Import Base BaseLemmas UtilsModel UtilsSpec UtilsLemmas ExtremaModel ExtremaSpec ExtremaLemmas
  RationalModel MeasureModel MeasureSpec LevelLemmas AverageLemmas MeasureLemmas MeasureResults.
Open Scope nat_scope.

(** ** orbit averages *)
Lemma gather_cons {A} (t : list A) i p r : gather t (i :: p) = Ok r -> exists x xs, r = x :: xs /\ nth_error t i = Some x /\ gather t p = Ok xs.
Proof. cbn. intros H. inv_bind H. inv_bind H. inv_ok H. apply get_ok in E. eauto. Qed.
Lemma orbit_points_of : forall ts xs ws, length ts = length xs -> qdivs (qdiff xs) (qdiff ts) = Ok ws ->
  orbit_points ts xs (combine (midpoints ts) ws).
Proof.
  intros ts xs ws L H. unfold qdivs in H. destruct (existsb _ _); [discriminate|]. apply Ok_inj in H. subst ws.
  revert xs L. induction ts as [|t ts IH]; intros [|x xs] L; try discriminate L; [constructor|].
  destruct ts as [|u ts], xs as [|y xs]; try discriminate L; [constructor|].
  specialize (IH (y :: xs) (f_equal pred L)).
  change (midpoints (t :: u :: ts)) with (((1 # 2) * (t + u))%Q :: midpoints (u :: ts)).
  change (qdiff (x :: y :: xs)) with ((y - x)%Q :: qdiff (y :: xs)).
  change (qdiff (t :: u :: ts)) with ((u - t)%Q :: qdiff (u :: ts)).
  cbn [map2 combine]. constructor. exact IH.
Qed.
Lemma combine_app {A B} : forall (a1 : list A) (b1 : list B) a2 b2, length a1 = length b1 ->
  combine (a1 ++ a2) (b1 ++ b2) = combine a1 b1 ++ combine a2 b2.
Proof. induction a1 as [|x a1 IH]; intros [|y b1] a2 b2 L; try discriminate L; cbn; [reflexivity|]. f_equal. apply IH. now injection L. Qed.
Lemma eval_curve_each f : forall ts vs, eval_curve f ts = Ok vs -> Forall2 (fun t v => f t = Ok v) ts vs.
Proof.
  induction ts as [|t ts IH]; cbn; intros vs H; [inv_ok H; constructor|]. inv_bind H. inv_bind H. inv_ok H. constructor; auto.
Qed.

Ltac okv H := cbn [attr] in H; try apply Ok_inj in H; match type of H with _ = ?y => subst y end.
Section Used.
  Context {V : Type}.
  Variable ecc_of : Q -> Q -> V.
  Variable vzero : V.
  Variable vneg : V -> bool.
  Variable find_extrema : bool -> res (list nat).
  Variable sv : list Q -> list Q -> nat -> Q -> Q.
  Variable pv : list Q -> list Q -> Q -> Q.
  Variable rfit : list Q -> list Q -> Z * Z -> res curve.
  Variable slope : list Q -> list V -> list bool.
  Notation measure := (measure_ecc ecc_of vzero vneg find_extrema sv pv rfit slope).
  Notation from_extrema := (measure_from_extrema ecc_of vneg sv pv rfit slope).

  Lemma extrema_used level c s s' r : snd (measure level c s) = (s', Ok r) -> s_zero s' = Some false ->
    exists p0 a0 gp ga p a, find_extrema true = Ok p0 /\
      (if c_midpoints c then a0 = get_apocenters_from_pericenters p0 else find_extrema false = Ok a0) /\
      snd (get_good_extrema level (c_phase c) p0 a0) = Ok (gp, ga) /\
      s_peri s' = Some p /\ s_apo s' = Some a /\
      (if c_precessing c && c_filtered c then (exists x, gp = x :: p) /\ (exists x, ga = x :: a) else p = gp /\ a = ga) /\
      2 <= length p0 /\ 2 <= length a0 /\ 2 <= length p /\ 2 <= length a /\
      (sorted p0 -> sorted a0 -> block_of p p0 /\ block_of a a0).
  Proof.
    intros H Zf. assert (H0 := H). apply measure_inv in H.
    destruct H as (p0 & a0 & F0 & R0 & [(_ & _ & _ & -> & _)|(L1 & L2 & gp & ga & p & a & G & C & H)]); [discriminate Zf|].
    assert (F := from_inv ecc_of vneg sv pv rfit slope level c p a _ s' r H).
    destruct F as (tp & ta & lo & hi & fp & fa & tref & fref & tout & ecc & Sp & Sa & W & _ & _ & P & A & _ & _ & _ & _ & _ & _ & (e1 & e2 & np & na & tc & C1) & (e3 & e4 & np' & na' & tc' & C2)).
    assert (LP : 2 <= length p).
    { unfold extrema_curve in C1. destruct (Nat.ltb_spec (length p) 2); [discriminate C1|assumption]. }
    assert (LA : 2 <= length a).
    { unfold extrema_curve in C2. destruct (Nat.ltb_spec (length a) 2); [discriminate C2|assumption]. }
    exists p0, a0, gp, ga, p, a. split; [exact F0|]. split; [exact R0|]. split; [exact G|]. split; [exact P|]. split; [exact A|].
    assert (CH : if c_precessing c && c_filtered c then (exists x, gp = x :: p) /\ (exists x, ga = x :: a) else p = gp /\ a = ga).
    { unfold chosen in C. destruct (c_precessing c && c_filtered c); [|exact C]. destruct C as [-> ->].
      destruct gp as [|x gp]; [cbn in LP; lia|]. destruct ga as [|y ga]; [cbn in LA; lia|]. eauto. }
    split; [exact CH|]. do 4 (split; [assumption|]). intros S1 S2.
    destruct (good_block _ _ _ _ _ _ S1 S2 G) as ((b1 & e1' & B1) & (b2 & e2' & B2) & _).
    unfold block_of. destruct (c_precessing c && c_filtered c).
    - destruct CH as [[x ->] [y ->]]. split; [exists (b1 ++ [x])%list, e1'|exists (b2 ++ [y])%list, e2']; rewrite <- app_assoc; assumption.
    - destruct CH as [-> ->]. split; eauto.
  Qed.

  Lemma average_used level c fr s s' r : c_ref c = FreqRef fr -> snd (measure level c s) = (s', Ok r) -> s_zero s' = Some false ->
    exists p a tp ta php pha lo hi fp fa ts ws,
      s_peri s' = Some p /\ s_apo s' = Some a /\ samples_at (c_t c) p tp /\ samples_at (c_t c) a ta /\
      s_window s' = Some (lo, hi) /\ common_window tp ta lo hi /\ s_curves s' = (Some fp, Some fa) /\ s_average s' = Some (ts, ws) /\
      ((c_average c = "mean_of_extrema_interpolants"%string /\ keeps_exactly (within lo hi) (c_t c) ts /\
        Forall2 (fun t w => exists wp wa, fp t = Ok wp /\ fa t = Ok wa /\ w = ((1 # 2) * (wp + wa))%Q) ts ws) \/
       (c_average c = "omega_gw_zeroecc"%string /\ keeps_exactly (within lo hi) (c_t c) ts /\
        exists zt zw k, c_zeroecc c = Some (zt, zw) /\ ws = map (sv zt zw k) ts /\
          exists z0 z1, first_is zt z0 /\ last_is zt z1 /\ forall t, In t ts -> within z0 z1 t) \/
       (c_average c = "orbit_averaged_omega_gw"%string /\
        samples_at (c_phase c) p php /\ samples_at (c_phase c) a pha /\
        exists op oa m k lo' hi', orbit_points tp php op /\ orbit_points ta pha oa /\
          Permutation m (oa ++ op) /\ increasing (map fst m) /\ increasing (map snd m) /\
          cut_window (map fst m) lo hi lo' hi' /\ keeps_exactly (within lo' hi') (c_t c) ts /\
          ws = map (sv (map fst m) (map snd m) k) ts)).
  Proof.
    intros R H Z.
    destruct (freq_measured ecc_of vzero vneg find_extrema sv pv rfit slope level c fr s s' r R H Z)
      as (IM & tv0 & [ts ws] & flo & fhi & o & tr & A1 & A2 & A3 & A4 & A5 & A6 & A7 & A8 & A9 & s1 & B1 & B2 & B3 & B4 & G).
    destruct (measured ecc_of vzero vneg find_extrema sv pv rfit slope level c s s' r H Z)
      as (p & a & tp & ta & lo & hi & fp & fa & ts' & P & A & Sp & Sa & CW & SW & SC & _).
    rewrite P in B1. rewrite A in B2. rewrite SW in B3. rewrite SC in B4.
    assert (KF : forall u v, keeps_exactly (within u v) (c_t c) (filter (fun t => Qle_bool u t && Qle_bool t v) (c_t c))).
    { intros u v. apply keeps_exactly_filter. intros x. rewrite andb_true_iff, !Qle_bool_iff. reflexivity. }
    cbn [snd fst] in *.
    destruct IM as [M|[M|[M|[]]]]; rewrite <- M in *; unfold get_omega_gw_average, run_averaging in G;
      cbn [String.eqb Ascii.eqb Bool.eqb negb] in G; cbv zeta in G.
    - exists p, a, tp, ta, [], [], lo, hi, fp, fa, ts, ws. do 8 (split; [assumption|]). left. split; [reflexivity|].
      step G as w st E. step E as w' st' E'. rewrite run_read in E'. injection E' as <- <-. rewrite run_lift, B3 in E. injection E as <- <-.
      cbn [fst snd] in G. step G as v st2 E. step E as cs st3 E3. rewrite run_read in E3. injection E3 as <- <-. rewrite B4 in E. cbn [fst snd attr] in E.
      lifted E as f1 Ef1. okv Ef1. lifted E as f2 Ef2. okv Ef2.
      lifted E as vp Vp. lifted E as va Va. cbn in E. injection E as <- <-. cbn in G. injection G as <- <-. split; [apply KF|].
      apply eval_curve_each in Vp, Va. clear -Vp Va. revert va Va. induction Vp as [|t v l lv E F IH]; intros va Va; inversion Va; subst; cbn; constructor; eauto.
    - exists p, a, tp, ta.
      step G as w st E. step E as p1 st1 E1. rewrite run_read, B1 in E1. injection E1 as <- <-. lifted E as p2 Ep. okv Ep.
      step E as a1 st2 E2. rewrite run_read, B2 in E2. injection E2 as <- <-. lifted E as a2 Ea. okv Ea.
      lifted E as mp Mp. lifted E as ma Ma. step E as w1 st3 E3. rewrite run_read, B3 in E3. injection E3 as <- <-. lifted E as w2 Ew. okv Ew.
      lifted E as mlo Mlo. lifted E as mhi Mhi. cbn in E. injection E as <- <-. cbn [fst snd] in G.
      step G as v st2 E. step E as p1 st3 E3. rewrite run_read, B1 in E3. injection E3 as <- <-. lifted E as p2 Ep. okv Ep.
      step E as a1 st4 E4. rewrite run_read, B2 in E4. injection E4 as <- <-. lifted E as a2 Ea. okv Ea.
      rewrite run_lift in E. injection E as <- E. cbn in G. injection G as Gt <-.
      unfold orbit_averaged in E.
      destruct (orbit_averages c p) as [wp|] eqn:Owp; [|discriminate E]. cbn [bind] in E.
      destruct (orbit_averages c a) as [wa|] eqn:Owa; [|discriminate E]. cbn [bind] in E.
      destruct (check_monotonicity wp); [|discriminate E]. cbn [bind] in E.
      destruct (check_monotonicity wa); [|discriminate E]. cbn [bind] in E.
      rewrite Mp in E. cbn [bind] in E. rewrite Ma in E. cbn [bind] in E. cbv zeta in E.
      set (m := sort_pairs (combine (ma ++ mp) (wa ++ wp))) in E.
      destruct (check_monotonicity (map snd m)) as [[]|] eqn:Cm; [|discriminate E]. cbn [bind] in E. apply check_monotonicity_ok in Cm.
      assert (E' := E). apply interpolate_spline_safe in E'. destruct E' as (_ & Inc & _). apply interpolate_spline_value in E. destruct E as [k ->].
      unfold average_times in Mp, Ma. apply gather_samples in Sp, Sa. rewrite Sp in Mp. rewrite Sa in Ma. cbn [bind] in Mp, Ma. okv Mp. okv Ma.
      assert (X : forall loc tl w, gather (c_t c) loc = Ok tl -> orbit_averages c loc = Ok w ->
                 exists ph, gather (c_phase c) loc = Ok ph /\ length tl = length ph /\ qdivs (qdiff ph) (qdiff tl) = Ok w).
      { intros loc tl w T O. unfold orbit_averages in O. destruct (gather (c_phase c) loc) as [ph|] eqn:Gp; [|discriminate O]. cbn [bind] in O.
        rewrite T in O. cbn [bind] in O. exists ph. split; [reflexivity|]. split; [|exact O].
        apply gather_length in Gp, T. congruence. }
      destruct (X _ _ _ Sp Owp) as (php & Gp & Lp & Qp). destruct (X _ _ _ Sa Owa) as (pha & Ga & La & Qa). clear X.
      assert (Lm : forall ph tl w, length tl = length ph -> qdivs (qdiff ph) (qdiff tl) = Ok w -> length (midpoints tl) = length w).
      { intros ph tl w L Q. unfold qdivs in Q. destruct (existsb _ _); [discriminate Q|]. okv Q.
        rewrite midpoints_length, map2_length, !qdiff_length. lia. }
      apply gather_samples in Gp, Ga. apply gather_samples in Sp, Sa.
      exists php, pha, lo, hi, fp, fa, ts, (map (sv (map fst m) (map snd m) k) ts).
      assert (PM : Permutation m (combine (midpoints ta) wa ++ combine (midpoints tp) wp)).
      { unfold m. rewrite <- combine_app; [apply sort_pairs_perm|]. eapply Lm; eauto. }
      rewrite Gt in *. do 7 (split; [assumption|]). split; [exact A1|]. right. right. split; [reflexivity|].
      split; [assumption|]. split; [assumption|].
      exists (combine (midpoints tp) wp), (combine (midpoints ta) wa), m, k.
      exists (Qmaxb lo mlo), (Qminb hi mhi).
      split; [now apply orbit_points_of|]. split; [now apply orbit_points_of|]. split; [exact PM|]. split; [exact Inc|]. split; [exact Cm|].
      split; [|split; [rewrite <- Gt; apply KF|reflexivity]].
      apply qmin_ok in Mlo. apply qmax_ok in Mhi. exists mlo, mhi.
      assert (I : forall x, In x (map fst m) <-> In x (midpoints ta ++ midpoints tp)).
      { assert (F : forall (x : list Q) (y : list Q), length x = length y -> map fst (combine x y) = x).
        { induction x as [|u x IH]; intros [|v y] L; try discriminate L; cbn; [reflexivity|]. f_equal. apply IH. now injection L. }
        intros x. assert (PF := Permutation_map fst PM). rewrite map_app, F, F in PF by (eapply Lm; eauto).
        split; apply Permutation_in; [exact PF|now apply Permutation_sym]. }
      split; [apply I, Mlo|]. split; [apply I, Mhi|]. split; [intros x J; apply I in J; split; [now apply Mlo|now apply Mhi]|].
      split; [apply Qmaxb_spec|apply Qminb_spec].
    - exists p, a, tp, ta, [], [], lo, hi, fp, fa, ts, ws. do 8 (split; [assumption|]). right. left. split; [reflexivity|].
      step G as w st E. step E as w' st' E'. rewrite run_read in E'. injection E' as <- <-. rewrite run_lift, B3 in E. injection E as <- <-.
      cbn [fst snd] in G. step G as v st2 E. lifted E as z Ez. rewrite run_lift in E. injection E as <- E. cbn in G. injection G as <- <-.
      split; [apply KF|]. destruct (c_zeroecc c) as [[zt zw]|]; [|discriminate Ez]. cbn in Ez. okv Ez. cbn [fst snd] in E.
      assert (E' := E). apply interpolate_spline_value in E. destruct E as [k ->]. exists zt, zw, k. split; [reflexivity|]. split; [reflexivity|].
      apply interpolate_spline_safe in E'. destruct E' as (_ & _ & L2 & _ & z0 & z1 & F1 & F2 & F3). exists z0, z1.
      split; [apply first_is_get; now apply get_ok|]. split; [|exact F3].
      apply last_is_last. destruct (last_of_nonempty zt) as [h Hh]; [intros ->; cbn in L2; lia|].
      assert (B' := Hh). apply last_of_nth in B'. destruct B' as [B' _]. rewrite F2 in B'. apply Some_inj in B'. now subst.
  Qed.
End Used.
