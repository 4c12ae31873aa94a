(** Histories of measurements and get_fref_bounds calls on an object with reference frequencies. *)
From Coq Require Import Lia Lqa.
From Verif Require Import Base BaseLemmas UtilsModel UtilsSpec UtilsLemmas ExtremaModel ExtremaSpec ExtremaLemmas
  RationalModel MeasureModel MeasureSpec LevelLemmas AverageLemmas MeasureLemmas MeasureResults.
Open Scope nat_scope.

(** the attributes an average is computed from *)
Definition sources (s : state) := (s_peri s, s_apo s, s_window s, s_curves s).
(** the value does not depend on the object *)
Definition det {A} (m : act A) : Prop := forall s1 s2, snd (run m s1) = snd (run m s2).
Lemma det_bind {A B} (m : act A) (k : A -> act B) : det m -> (forall a, det (k a)) -> det (abind m k).
Proof.
  intros Hm Hk s1 s2. rewrite !run_bind. assert (E := Hm s1 s2). destruct (run m s1) as [t1 r1], (run m s2) as [t2 r2]. cbn in E. subst r2.
  destruct r1 as [a|e]; [apply Hk|reflexivity].
Qed.
Ltac det_step :=
  first [ apply det_bind; [|intros ?]
        | match goal with
          | |- det (if ?b then _ else _) => destruct b
          | |- det (match ?x with _ => _ end) => destruct x
          end
        | intros ? ?; reflexivity ].

Section Bounds.
  Context {V : Type}.
  Variables (ecc_of : Q -> Q -> V) (vzero : V) (vneg : V -> bool) (find_extrema : bool -> res (list nat)).
  Variables (sv : list Q -> list Q -> nat -> Q -> Q) (pv : list Q -> list Q -> Q -> Q).
  Variables (rfit : list Q -> list Q -> Z * Z -> res curve) (slope : list Q -> list V -> list bool).
  Variables (l : Z) (c : config) (fr : list Q).
  Hypotheses (SP : c_interp c = SplineMethod) (FR : c_ref c = FreqRef fr).
  Notation measure := (measure_ecc ecc_of vzero vneg find_extrema sv pv rfit slope l c).
  Notation ops_run := (run_ops ecc_of vzero vneg find_extrema sv pv rfit slope l c).
  Notation op_run := (run_op ecc_of vzero vneg find_extrema sv pv rfit slope l c).
  Notation T := (tref_fref_from_fref sv pv l c fr).
  Notation average m := (get_omega_gw_average sv pv c m).

  (** a computation that stops before the conversion of the frequencies for every object, or reaches it for every object and
      with the same sources *)
  Definition hits {A} (S : state -> Prop) (m : act A) : Prop :=
    (forall s, S s -> s_average (fst (run m s)) = s_average s) \/
    (exists kx, (exists w, snd (fst kx) = Some w) /\ (exists a, snd (fst (fst kx)) = Some a) /\
       forall s, S s -> sources (fst (run m s)) = kx /\
       exists s1, sources s1 = kx /\ s_average s1 = s_average s /\ s_average (fst (run m s)) = s_average (fst (run T s1))).
  Lemma hits_left {A} S (m : act A) : keeps s_average m -> hits S m.
  Proof. intros H. left. intros s _. apply H. Qed.
  Lemma hits_bind {A B} (S S' : state -> Prop) (m : act A) (k : A -> act B) : det m -> keeps s_average m -> (forall s, S s -> S' (fst (run m s))) ->
    (forall a, hits S' (k a)) -> hits S (abind m k).
  Proof.
    intros D K P H. destruct (snd (run m (fresh None))) as [a|e] eqn:E.
    - assert (R : forall s, run m s = (fst (run m s), Ok a)). { intros s. rewrite <- E, (D (fresh None) s). destruct (run m s); reflexivity. }
      destruct (H a) as [L|(kx & W & X & Rt)]; [left|right; exists kx; split; [exact W|]; split; [exact X|]]; intros s Ss; rewrite run_bind, R.
      + rewrite L by now apply P. apply K.
      + destruct (Rt _ (P s Ss)) as (A1 & s1 & B1 & B2 & B3). split; [exact A1|]. exists s1. split; [exact B1|]. split; [rewrite B2; apply K|exact B3].
    - left. intros s _. rewrite run_bind. assert (R := D (fresh None) s). rewrite E in R. assert (Ks := K s). destruct (run m s) as [s1 r1]. cbn in R, Ks. subst r1. exact Ks.
  Qed.
  Lemma hits_here {B} (S : state -> Prop) (k : list Q * list Q -> act B) kx : (exists w, snd (fst kx) = Some w) -> (exists a, snd (fst (fst kx)) = Some a) ->
    (forall s, S s -> sources s = kx) -> keeps sources T -> (forall a, keeps sources (k a)) -> (forall a, keeps s_average (k a)) -> hits S (abind T k).
  Proof.
    intros W X H KT Kk Ka. right. exists kx. split; [exact W|]. split; [exact X|]. intros s Ss. rewrite run_bind. assert (KTs := KT s). destruct (run T s) as [s1 [a|e]] eqn:R; cbn [fst] in KTs.
    - split; [rewrite Kk, KTs; auto|]. exists s. split; [auto|]. split; [reflexivity|]. rewrite R. apply Ka.
    - cbn [fst]. split; [rewrite KTs; auto|]. exists s. rewrite R. auto.
  Qed.
  Lemma keeps_sources_T : keeps sources T.
  Proof. apply (keeps_tref sv pv sources). reflexivity. Qed.
  Lemma det_curve np na tc loc : det (extrema_curve sv pv rfit l c np na tc loc).
  Proof. unfold extrema_curve. rewrite SP. repeat det_step. Qed.
  Lemma hits_curves {A} (S S' : state -> Prop) fp (m : act A) : hits S' m -> (forall s cs, S s -> S' (set_curves cs s)) ->
    hits S (cs <~ aread s_curves ;; _ <~ amod (set_curves (Some fp, snd cs)) ;; m).
  Proof.
    intros H P. assert (R : forall s, run (cs <~ aread s_curves ;; _ <~ amod (set_curves (Some fp, snd cs)) ;; m) s = run m (set_curves (Some fp, snd (s_curves s)) s)).
    { intros s. rewrite run_bind, run_read, run_bind. reflexivity. }
    destruct H as [L|(kx & W & X & Rt)]; [left|right; exists kx; split; [exact W|]; split; [exact X|]]; intros s Ss; rewrite R.
    - rewrite L by now apply P. reflexivity.
    - destruct (Rt _ (P s (Some fp, snd (s_curves s)) Ss)) as (A1 & s1 & B1 & B2 & B3). split; [exact A1|]. exists s1. auto.
  Qed.
  Definition located (p a : list nat) (s : state) : Prop := s_peri s = Some p /\ s_apo s = Some a.
  Definition windowed (p a : list nat) (w : Q * Q) (s : state) : Prop := located p a s /\ s_window s = Some w.
  Lemma keeps_located {A} p a (m : act A) : keeps s_peri m -> keeps s_apo m -> forall s, located p a s -> located p a (fst (run m s)).
  Proof. intros H1 H2 s [A1 A2]. split; [now rewrite H1|now rewrite H2]. Qed.
  Lemma keeps_windowed {A} p a w (m : act A) : keeps s_peri m -> keeps s_apo m -> keeps s_window m -> forall s, windowed p a w s -> windowed p a w (fst (run m s)).
  Proof. intros H1 H2 H3 s [A1 A2]. split; [now apply keeps_located|now rewrite H3]. Qed.
  Ltac keeping := repeat first [apply keeps_curve; reflexivity | apply keeps_ecc_check; reflexivity | keeps_step].
  Lemma hits_from p a : hits (located p a) (measure_from_extrema ecc_of vneg sv pv rfit slope l c p a).
  Proof.
    unfold measure_from_extrema. cbv zeta.
    do 6 (apply hits_bind with (S' := located p a); [repeat det_step|keeping|apply keeps_located; keeping|intros ?]).
    eapply hits_bind with (S' := windowed p a _); [repeat det_step|keeping|intros s Hs; split; [exact Hs|reflexivity]|intros ?].
    eapply hits_bind; [apply det_curve|keeping|apply keeps_windowed; keeping|intros fp].
    match goal with |- hits ?S _ => apply (hits_curves S S); [|intros s cs Hs; exact Hs] end.
    eapply hits_bind; [apply det_curve|keeping|apply keeps_windowed; keeping|intros fa].
    eapply hits_bind with (S' := fun s => sources s = (Some p, Some a, Some _, (Some fp, Some fa))); [repeat det_step|keeping| |intros ?].
    { intros s [[H1 H2] H3]. unfold sources. cbn. rewrite H1, H2, H3. reflexivity. }
    rewrite FR. eapply hits_here; [| |intros s Hs; exact Hs|exact keeps_sources_T| |].
    - cbn. eauto.
    - cbn. eauto.
    - intros tf. keeping.
    - intros tf. keeping.
  Qed.
  Lemma hits_measure : hits (fun _ => True) measure.
  Proof.
    unfold measure_ecc.
    do 4 (eapply hits_bind with (S' := fun _ => True); [repeat det_step|keeping|auto|intros ?]).
    match goal with |- hits _ (if ?b then _ else _) => destruct b end; [apply hits_left; keeping|].
    eapply hits_bind with (S' := fun _ => True); [repeat det_step|keeping|auto|intros ?].
    eapply hits_bind with (S' := fun _ => True); [repeat det_step|keeping|auto|intros [gp ga]].
    cbv zeta. cbn [fst snd].
    eapply hits_bind with (S' := fun _ => True); [repeat det_step|keeping|auto|intros ?].
    eapply hits_bind with (S' := fun _ => True); [repeat det_step|keeping|auto|intros ?].
    eapply hits_bind with (S' := fun _ => True); [repeat det_step|keeping|auto|intros ?].
    match goal with |- context [if c_precessing c && c_filtered c then ?x else ?y] => set (pa := if c_precessing c && c_filtered c then x else y) end.
    eapply hits_bind with (S' := located (fst pa) (snd pa)); [repeat det_step|keeping|intros s _; split; reflexivity|intros ?].
    do 3 (eapply hits_bind with (S' := located (fst pa) (snd pa)); [repeat det_step|keeping|apply keeps_located; keeping|intros ?]).
    apply hits_from.
  Qed.

  (** an average depends on the sources only *)
  Lemma average_of m s1 s2 : sources s1 = sources s2 -> snd (run (average m) s1) = snd (run (average m) s2).
  Proof.
    intros H. injection H as H1 H2 H3 H4.
    assert (G : forall {A} (f : state -> A) (k : A -> act (list Q * list Q)) s, snd (run (abind (aread f) k) s) = snd (run (k (f s)) s)) by (intros; rewrite run_bind, run_read; reflexivity).
    unfold get_omega_gw_average. cbv zeta. set (mm := match m with None => _ | Some _ => _ end).
    assert (RD : forall (w : Q * Q) ts, snd (run (run_averaging sv pv c mm ts) s1) = snd (run (run_averaging sv pv c mm ts) s2)).
    { intros w ts. unfold run_averaging. destruct (String.eqb mm "mean_of_extrema_interpolants").
      - rewrite !run_bind, !run_read. rewrite H4. rewrite !run_bind, !run_lift. destruct (attr _); [|reflexivity]. rewrite !run_bind, !run_lift. destruct (attr _); [|reflexivity].
        rewrite !run_bind, !run_lift. destruct (eval_curve _ _); [|reflexivity]. rewrite !run_bind, !run_lift. destruct (eval_curve _ _); reflexivity.
      - destruct (String.eqb mm "orbit_averaged_omega_gw").
        + rewrite !run_bind, !run_read. rewrite H1. rewrite !run_bind, !run_lift. destruct (attr _); [|reflexivity]. rewrite !run_bind, !run_read, H2, !run_bind, !run_lift. destruct (attr _); reflexivity.
        + destruct (String.eqb mm "omega_gw_zeroecc"); [|reflexivity]. rewrite !run_bind, !run_lift. destruct (attr _); reflexivity. }
    rewrite !run_bind. set (W := if negb (String.eqb mm "orbit_averaged_omega_gw") then _ else _).
    assert (EW : snd (run W s1) = snd (run W s2) /\ fst (run W s1) = s1 /\ fst (run W s2) = s2).
    { unfold W. destruct (negb (String.eqb mm "orbit_averaged_omega_gw")).
      - rewrite !run_bind, !run_read, H3, !run_lift. auto.
      - rewrite !run_bind, !run_read, H1, !run_bind, !run_lift. destruct (attr _); [|auto]. rewrite !run_bind, !run_read, H2, !run_bind, !run_lift. destruct (attr _); [|auto].
        rewrite !run_bind, !run_lift. destruct (average_times c _); [|auto]. rewrite !run_bind, !run_lift. destruct (average_times c _); [|auto].
        rewrite !run_bind, !run_read, H3, !run_bind, !run_lift. destruct (attr _); [|auto]. rewrite !run_bind, !run_lift. destruct (qmin _); [|auto]. rewrite !run_bind, !run_lift. destruct (qmax _); auto. }
    destruct (run W s1) as [t1 r1], (run W s2) as [t2 r2]. cbn in EW. destruct EW as (<- & -> & ->). destruct r1 as [w|e]; [|reflexivity].
    rewrite !run_bind. assert (R := RD w (filter (fun t => Qle_bool (fst w) t && Qle_bool t (snd w)) (c_t c))).
    destruct (run (run_averaging _ _ _ _ _) s1) as [u1 q1], (run (run_averaging _ _ _ _ _) s2) as [u2 q2]. cbn in R. subst q2. destruct q1; reflexivity.
  Qed.
  Lemma average_keeps m s : fst (run (average m) s) = s.
  Proof. apply (keeps_get_average sv pv (fun s => s) c m s). Qed.
  (** before any measurement there is no average *)
  Lemma average_none m s : s_peri s = None -> s_window s = None -> exists e, snd (run (average m) s) = Err e.
  Proof.
    intros H1 H2. unfold get_omega_gw_average. cbv zeta. set (mm := match m with None => _ | Some _ => _ end). rewrite run_bind.
    destruct (negb (String.eqb mm "orbit_averaged_omega_gw")); rewrite run_bind, run_read, ?H1, ?H2; cbn; eauto.
  Qed.

  (** what the conversion of the frequencies does to the stored average *)
  Definition said : res unit := snd (if c_use_only c then dbg "fref bounds only for the short segment" l false else lret tt).
  Notation own s := (snd (run (average (Some (c_average c))) s)).
  Lemma run_said s : run (if c_use_only c then alog (dbg "fref bounds only for the short segment" l false) else aret tt) s = (s, said).
  Proof. unfold said. destruct (c_use_only c); reflexivity. Qed.
  Lemma bounds_average m s : s_average s = None -> s_average (fst (run (get_fref_bounds sv pv l c m) s)) =
    match said with Err _ => None | Ok _ => match snd (run (average m) s) with Ok tv => Some tv | Err _ => None end end.
  Proof.
    intros A. unfold get_fref_bounds. rewrite run_bind, run_said. destruct said as [u|e]; [|exact A]. rewrite run_bind, run_read, A, run_bind, run_bind.
    assert (K := average_keeps m s). destruct (run (average m) s) as [s1 [tv|e]]; cbn [fst] in K; subst s1; cbn [snd]; [|exact A].
    rewrite run_bind. change (run (amod (set_average (Some tv))) s) with (set_average (Some tv) s, Ok tt). cbv beta iota. rewrite run_ret.
    rewrite run_bind, run_lift. destruct (qmin _); [|reflexivity]. rewrite run_bind, run_lift. destruct (qmax _); reflexivity.
  Qed.
  Lemma bounds_sources m s : sources (fst (run (get_fref_bounds sv pv l c m) s)) = sources s.
  Proof. apply (keeps_bounds sv pv sources). reflexivity. Qed.
  Lemma fref_out_average fs m s : s_average (fst (run (get_fref_out sv pv l c fs m) s)) = s_average (fst (run (get_fref_bounds sv pv l c (Some m)) s)).
  Proof.
    unfold get_fref_out. rewrite run_bind. destruct (run (get_fref_bounds sv pv l c (Some m)) s) as [s1 [b|e]]; [|reflexivity]. cbv zeta.
    destruct (filter _ fs); [|reflexivity]. rewrite run_bind, run_lift. destruct (check_input_limits _ _ _); reflexivity.
  Qed.
  Lemma fref_out_said fs m s s1 o : run (get_fref_out sv pv l c fs m) s = (s1, Ok o) -> said = Ok tt.
  Proof.
    unfold get_fref_out, get_fref_bounds. rewrite !run_bind, run_said. destruct said as [[]|e]; [reflexivity|discriminate].
  Qed.
  Definition known := existsb (String.eqb (c_average c)) averaging_methods.
  Lemma T_average s : s_average (fst (run T s)) =
    if known then match s_average (fst (run (get_fref_out sv pv l c fr (c_average c)) s)), snd (run (get_fref_out sv pv l c fr (c_average c)) s), own s with
                  | _, Ok _, Ok tv => Some tv | a, _, _ => a end
    else s_average s.
  Proof.
    unfold tref_fref_from_fref, known. cbv zeta. destruct (existsb _ _); [|reflexivity]. rewrite run_bind.
    assert (SS : sources (fst (run (get_fref_out sv pv l c fr (c_average c)) s)) = sources s) by (apply (keeps_fref_out sv pv sources); reflexivity).
    destruct (run (get_fref_out sv pv l c fr (c_average c)) s) as [s1 [o|e]]; cbn [fst snd] in *; [|destruct (s_average s1); reflexivity].
    rewrite run_bind. rewrite <- (average_of (Some (c_average c)) s1 s SS). assert (K := average_keeps (Some (c_average c)) s1).
    destruct (run (average _) s1) as [s2 [tv|e]]; cbn [fst snd] in *; subst s2; [|destruct (s_average s1); reflexivity].
    rewrite run_bind. change (run (amod (set_average (Some tv))) s1) with (set_average (Some tv) s1, Ok tt). cbv beta iota.
    rewrite run_bind, run_lift. destruct (s_average s1); (destruct (check_monotonicity _); [|reflexivity]; rewrite run_bind, run_lift; destruct (interpolate _ _ _ _ _ _ _ _); [|reflexivity];
      rewrite run_bind; destruct (existsb _ _); [rewrite run_log; destruct (snd _); reflexivity|reflexivity]).
  Qed.
  Lemma T_some s tv : s_average s = Some tv -> s_average (fst (run T s)) = Some tv \/
    (known = true /\ said = Ok tt /\ exists tv', own s = Ok tv' /\ s_average (fst (run T s)) = Some tv').
  Proof.
    intros A. rewrite T_average. destruct known; [|auto]. rewrite fref_out_average, (bounds_fixed sv pv l c (Some (c_average c)) s tv A). cbn [fst]. rewrite A.
    destruct (run (get_fref_out sv pv l c fr (c_average c)) s) as [s1 [o|e]] eqn:R; cbn [snd]; [|auto]. apply fref_out_said in R. destruct (own s) as [tv'|e]; [|auto]. right. eauto.
  Qed.
  Lemma T_none s : s_average s = None -> known = true -> said = Ok tt -> forall tv, own s = Ok tv -> s_average (fst (run T s)) = Some tv.
  Proof.
    intros A KN SD tv O. rewrite T_average, KN, fref_out_average, (bounds_average _ _ A), SD, O. destruct (snd (run (get_fref_out _ _ _ _ _ _) s)); reflexivity.
  Qed.
  Lemma T_none_inv s tv : s_average s = None -> s_average (fst (run T s)) = Some tv -> known = true /\ said = Ok tt /\ own s = Ok tv.
  Proof.
    intros A. rewrite T_average. destruct known; [|rewrite A; discriminate]. rewrite fref_out_average, (bounds_average _ _ A). destruct said as [[]|e] eqn:SD; destruct (own s) as [tv'|e'] eqn:O; cbn.
    - destruct (snd (run (get_fref_out _ _ _ _ _ _) s)); intros H; apply Some_inj in H; subst; auto.
    - destruct (snd (run (get_fref_out _ _ _ _ _ _) s)); discriminate.
    - destruct (run (get_fref_out sv pv l c fr (c_average c)) s) as [s1 [o|e1]] eqn:R; cbn [snd]; [apply fref_out_said in R; congruence|discriminate].
    - destruct (snd (run (get_fref_out _ _ _ _ _ _) s)); discriminate.
  Qed.

  (** ** histories of a new object *)
  Definition untouched (s : state) : Prop := sources s = (None, None, None, (None, None)) /\ s_average s = None.
  Definition settled (kx : option (list nat) * option (list nat) * option (Q * Q) * (option curve * option curve)) (s : state) : Prop :=
    sources s = kx /\ forall tv, known = true -> said = Ok tt -> own s = Ok tv -> s_average s = Some tv.
  (** an invariant of the history under which a stored average stays *)
  Definition lasting (J : state -> Prop) : Prop :=
    (forall o s, o <> Forget -> J s -> J (snd (op_run o s))) /\
    (forall o s tv, o <> Forget -> J s -> s_average s = Some tv -> s_average (snd (op_run o s)) = Some tv).
  Lemma bounds_untouched m s : untouched s -> untouched (fst (run (get_fref_bounds sv pv l c m) s)) /\ exists e, snd (run (get_fref_bounds sv pv l c m) s) = Err e.
  Proof.
    intros [U A]. assert (U' := U). injection U' as U1 U2 U3 U4. destruct (average_none m s U1 U3) as [e E]. split.
    - split; [now rewrite bounds_sources|]. rewrite (bounds_average m s A), E. destruct said; reflexivity.
    - unfold get_fref_bounds. rewrite run_bind, run_said. destruct said as [u|e']; [|cbn; eauto]. rewrite run_bind, run_read, A, run_bind, run_bind.
      destruct (run (average m) s) as [s1 [tv|e']]; [discriminate|]. cbn. eauto.
  Qed.
  Lemma history_invariant : exists J, lasting J /\ forall d, J (fresh d).
  Proof.
    destruct hits_measure as [L|(kx & W & X & R)].
    - exists (fun _ => True). split; [|auto]. split; [auto|]. intros o s tv N _ A. destruct o as [|m|]; [| |congruence].
      + rewrite run_op_measure. cbn [snd]. rewrite L; auto.
      + rewrite run_op_bounds, (bounds_fixed sv pv l c m s tv A). exact A.
    - exists (fun s => untouched s \/ settled kx s). split; [|intros d; left; split; reflexivity].
      assert (MS : forall s, untouched s \/ settled kx s -> settled kx (fst (run measure s)) /\ forall tv, s_average s = Some tv -> s_average (fst (run measure s)) = Some tv).
      { intros s H. destruct (R s I) as (R1 & s1 & R2 & R3 & R4).
        assert (KO : forall tv, own s1 = Ok tv <-> own (fst (run measure s)) = Ok tv) by (intros tv; rewrite (average_of (Some (c_average c)) s1 (fst (run measure s))); [reflexivity|congruence]).
        destruct (s_average s) as [tv|] eqn:A.
        - destruct H as [[_ U]|[S1 S2]]; [congruence|]. assert (O1 : own s = own s1) by (apply average_of; congruence).
          assert (E : s_average (fst (run measure s)) = Some tv).
          { rewrite R4. destruct (T_some s1 tv R3) as [E|(KN & SD & tv' & O & E)]; [exact E|]. rewrite E. rewrite <- O1 in O. rewrite (S2 tv' KN SD O) in A. exact A. }
          split; [|intros tv0 H0; apply Some_inj in H0; subst; exact E]. split; [exact R1|]. intros tv' KN SD O. apply KO in O. rewrite <- O1 in O. rewrite (S2 tv' KN SD O) in A. now rewrite E, <- A.
        - split; [|discriminate]. split; [exact R1|]. intros tv KN SD O. apply KO in O. rewrite R4. now apply T_none. }
      split.
      + intros o s N H. destruct o as [|m|]; [| |congruence].
        * rewrite run_op_measure. right. now apply MS.
        * rewrite run_op_bounds. cbn [snd]. destruct H as [U|[S1 S2]]; [left; now apply bounds_untouched|]. right.
          assert (B := bounds_sources m s). split; [congruence|]. intros tv KN SD O. rewrite (average_of _ _ s B) in O. assert (A := S2 tv KN SD O). now rewrite (bounds_fixed sv pv l c m s tv A).
      + intros o s tv N H A. destruct o as [|m|]; [| |congruence].
        * rewrite run_op_measure. now apply MS.
        * rewrite run_op_bounds, (bounds_fixed sv pv l c m s tv A). exact A.
  Qed.
  Lemma lasting_history J : lasting J -> forall os s, ~ In Forget os -> J s ->
    J (snd (ops_run os s)) /\ forall tv, s_average s = Some tv -> s_average (snd (ops_run os s)) = Some tv.
  Proof.
    intros [J1 J2]. induction os as [|o os IH]; intros s N H; [split; auto|]. cbn [run_ops].
    assert (No : o <> Forget) by (intros ->; apply N; now left). assert (Nos : ~ In Forget os) by (intros X; apply N; now right).
    assert (A := J1 o s No H). assert (B := fun tv => J2 o s tv No H). destruct (op_run o s) as [y s1]. cbn [snd] in A, B. destruct (IH s1 Nos A) as [IH1 IH2].
    destruct (ops_run os s1) as [ys s2]. cbn [snd] in *. auto.
  Qed.
  Lemma lasting_bounds J : lasting J -> forall os s b, ~ In Forget os -> J s -> In (RBounds (Ok b)) (fst (ops_run os s)) ->
    exists tv, s_average (snd (ops_run os s)) = Some tv /\ cached_bounds l c tv = Ok b.
  Proof.
    intros JL. induction os as [|o os IH]; intros s b N H I; [destruct I|]. cbn [run_ops] in *.
    assert (No : o <> Forget) by (intros ->; apply N; now left). assert (Nos : ~ In Forget os) by (intros X; apply N; now right).
    assert (A := proj1 JL o s No H). destruct (op_run o s) as [y s1] eqn:O. cbn [snd] in A. assert (LH := lasting_history J JL os s1 Nos A). assert (IH' := IH s1 b Nos A).
    destruct (ops_run os s1) as [ys s2]. cbn [fst snd] in *. destruct I as [I|I]; [|auto]. subst y.
    destruct o as [|m|]; [rewrite run_op_measure in O; discriminate| |congruence]. rewrite run_op_bounds in O. injection O as O1 O2.
    destruct (run (get_fref_bounds sv pv l c m) s) as [s1' rb] eqn:RB. cbn [fst snd] in *. subst s1' rb. apply bounds_first in RB. destruct RB as (tv & A' & C). exists tv. split; [now apply LH|exact C].
  Qed.
  Lemma freq_same_bounds d os b1 b2 : ~ In Forget os -> In (RBounds (Ok b1)) (fst (ops_run os (fresh d))) -> In (RBounds (Ok b2)) (fst (ops_run os (fresh d))) -> b1 = b2.
  Proof.
    intros N I1 I2. destruct history_invariant as (J & JL & JF). destruct (lasting_bounds J JL os _ b1 N (JF d) I1) as (tv1 & A1 & C1).
    destruct (lasting_bounds J JL os _ b2 N (JF d) I2) as (tv2 & A2 & C2). rewrite A1 in A2. apply Some_inj in A2. subst tv2. rewrite C1 in C2. now apply Ok_inj in C2.
  Qed.

  (** the small-eccentricity fallback is taken by every measurement of an object or by none *)
  Lemma fallback_always s s' r : run measure s = (s', Ok r) -> s_zero s' <> Some false -> forall t, sources (fst (run measure t)) = sources t /\ s_average (fst (run measure t)) = s_average t.
  Proof.
    intros H Z t. unfold measure_ecc in H |- *. rewrite run_bind, run_lift in H |- *. destruct (find_extrema true) as [peri|]; [|discriminate].
    rewrite run_bind, run_log in H |- *. destruct (snd (check_num_extrema c (length peri))) as [few_p|]; [|discriminate].
    rewrite run_bind in H |- *. set (G := if c_midpoints c then _ else _) in *.
    assert (DG : forall s, run G s = (s, if c_midpoints c then Ok (get_apocenters_from_pericenters peri) else find_extrema false)) by (intros; unfold G; destruct (c_midpoints c); reflexivity).
    rewrite DG in H |- *. destruct (if c_midpoints c then _ else _) as [apo|]; [|discriminate]. rewrite run_bind, run_log in H |- *. destruct (snd (check_num_extrema c (length apo))) as [few_a|]; [|discriminate].
    destruct ((few_p || few_a) && c_return_zero c).
    - rewrite run_bind. change (run (amod (set_zero true)) t) with (set_zero true t, Ok tt). cbv beta iota. rewrite run_lift. split; reflexivity.
    - exfalso. apply Z. rewrite run_bind in H. change (run (amod (set_zero false)) s) with (set_zero false s, Ok tt) in H. cbv beta iota in H.
      assert (KZ : forall m, keeps s_zero m -> run m (set_zero false s) = (s', Ok r) -> s_zero s' = Some false) by (intros m K E; apply (keeps_run s_zero m _ _ _ K) in E; exact E).
      eapply KZ; [|exact H]. repeat first [apply keeps_from; reflexivity | keeps_step].
  Qed.
  Lemma untouched_history os : (forall t, sources (fst (run measure t)) = sources t /\ s_average (fst (run measure t)) = s_average t) -> forall s, untouched s -> ~ In Forget os ->
    forall b, ~ In (RBounds (Ok b)) (fst (ops_run os s)).
  Proof.
    intros HM. induction os as [|o os IH]; intros s U N b I; [destruct I|]. cbn [run_ops] in I.
    assert (Nos : ~ In Forget os) by (intros X; apply N; now right). destruct (op_run o s) as [y s1] eqn:O. assert (IH' := IH s1). destruct (ops_run os s1) as [ys s2]. cbn [fst snd] in *.
    destruct o as [|m|]; [| |apply N; now left].
    - rewrite run_op_measure in O. injection O as <- <-. destruct I as [I|I]; [discriminate|]. destruct (HM s) as [H1 H2]. destruct U as [U1 U2]. apply (IH' (conj (eq_trans H1 U1) (eq_trans H2 U2)) Nos b I).
    - rewrite run_op_bounds in O. injection O as <- <-. destruct (bounds_untouched m s U) as [U' [e E]]. destruct I as [I|I]; [rewrite E in I; discriminate|]. apply (IH' U' Nos b I).
  Qed.
  Lemma lasting_measured J : lasting J -> forall os s r, ~ In Forget os -> J s -> In (RMeasure (Ok r)) (fst (ops_run os s)) ->
    exists s0 s1, J s0 /\ run measure s0 = (s1, Ok r) /\ (forall tv, s_average s1 = Some tv -> s_average (snd (ops_run os s)) = Some tv).
  Proof.
    intros JL. induction os as [|o os IH]; intros s r N H I; [destruct I|]. cbn [run_ops] in *.
    assert (No : o <> Forget) by (intros ->; apply N; now left). assert (Nos : ~ In Forget os) by (intros X; apply N; now right).
    assert (A := proj1 JL o s No H). destruct (op_run o s) as [y s1] eqn:O. cbn [snd] in A. assert (LH := lasting_history J JL os s1 Nos A). assert (IH' := IH s1 r Nos A).
    destruct (ops_run os s1) as [ys s2]. cbn [fst snd] in *. destruct I as [I|I]; [|auto]. subst y.
    destruct o as [|m|]; [|rewrite run_op_bounds in O; discriminate|congruence]. rewrite run_op_measure in O. injection O as O1 O2.
    exists s, s1. split; [exact H|]. split; [|apply LH]. destruct (run measure s) as [s1' rb]. cbn [fst snd] in *. now subst.
  Qed.
  Lemma freq_accepted d os lo hi r : ~ In Forget os -> In (RBounds (Ok (lo, hi))) (fst (ops_run os (fresh d))) -> In (RMeasure (Ok r)) (fst (ops_run os (fresh d))) ->
    exists o, r_fref_out r = Some o /\ forall f, In f (entries o) -> (lo <= f < hi)%Q.
  Proof.
    intros N IB IM. destruct history_invariant as (J & JL & JF). destruct (lasting_bounds J JL os _ (lo, hi) N (JF d) IB) as (tv & A & C).
    destruct (lasting_measured J JL os _ r N (JF d) IM) as (s0 & s1 & J0 & M & P).
    assert (Z : s_zero s1 = Some false).
    { destruct (s_zero s1) as [[]|] eqn:Z0; [exfalso|reflexivity|exfalso]; (assert (F := fallback_always s0 s1 r M); rewrite Z0 in F; assert (G := F ltac:(discriminate));
        apply (untouched_history os G (fresh d) (conj eq_refl eq_refl) N (lo, hi) IB)). }
    destruct (freq_measured ecc_of vzero vneg find_extrema sv pv rfit slope l c fr s0 s1 r FR M Z) as (_ & tv0 & tv1 & lo' & hi' & o & ts & A1 & A' & B & _ & O & K & _).
    assert (P1 := P tv1 A1). rewrite A in P1. apply Some_inj in P1. subst tv1.
    assert (tv0 = tv). { destruct A' as [A'|[_ A']]; [|exact A']. assert (Q0 := proj2 JL Measure s0 tv0 ltac:(discriminate) J0 A'). rewrite run_op_measure, M in Q0. cbn [fst snd] in Q0. congruence. }
    subst tv0. apply cached_min_max in C. apply bounds_of_intro in C. exists o. split; [exact O|]. intros f If. apply (keeps_exactly_in _ _ _ K) in If. destruct If as [_ [F1 F2]].
    destruct C as (a1 & b1 & Ia & Ib & MM & L1 & H1). destruct B as (a2 & b2 & Ia2 & Ib2 & M2 & L2 & H2).
    assert (EA : (a1 == a2)%Q) by (apply Qle_antisym; [apply MM; auto|apply M2; auto]).
    assert (EB : (b1 == b2)%Q) by (apply Qle_antisym; [apply M2; auto|apply MM; auto]).
    rewrite L1, H1, EA, EB. rewrite <- L2, <- H2. split; assumption.
  Qed.

  (** ** C32: every measurement of a history gives the same result *)
  Definition owned kx (s : state) : Prop := s_average s = None \/ exists s0 tv, sources s0 = kx /\ own s0 = Ok tv /\ s_average s = Some tv.
  Definition decc_ok {A} (m : act A) (s1 s2 : state) : Prop := s_decc s2 = s_decc s1 \/ s_decc s2 = s_decc (fst (run m s1)).
  Definition same_after {A} (m : act A) (s1 s2 : state) : Prop := snd (run m s2) = snd (run m s1) /\ s_decc (fst (run m s2)) = s_decc (fst (run m s1)).
  Definition twin {A} (S : state -> Prop) (m : act A) : Prop :=
    (forall s1 s2, S s1 -> S s2 -> decc_ok m s1 s2 -> same_after m s1 s2) \/
    exists kx, (forall s, S s -> sources (fst (run m s)) = kx) /\
      forall s1 s2, S s1 -> S s2 -> owned kx s1 -> owned kx s2 -> decc_ok m s1 s2 -> same_after m s1 s2.
  Lemma owned_keeps kx s s' : s_average s' = s_average s -> owned kx s -> owned kx s'.
  Proof. intros E [O|(s0 & tv & A & B & C)]; [left; congruence|right]. exists s0, tv. split; [exact A|]. split; [exact B|congruence]. Qed.
  Lemma twin_stable {A} S (m : act A) : stable m -> twin S m.
  Proof. intros H. left. intros s1 s2 _ _ D. now apply H. Qed.
  Lemma decc_bind {A B} (m : act A) (k : A -> act B) s1 s2 a : keeps s_decc m -> snd (run m s1) = Ok a ->
    decc_ok (abind m k) s1 s2 -> decc_ok (k a) (fst (run m s1)) (fst (run m s2)).
  Proof.
    intros K E [D|D]; [left; rewrite !K; exact D|right]. rewrite K, D, run_bind. destruct (run m s1) as [t r]. cbn in E. subst r. reflexivity.
  Qed.
  Lemma twin_bind {A B} (S S' : state -> Prop) (m : act A) (k : A -> act B) : det m -> keeps s_decc m -> keeps s_average m -> (forall s, S s -> S' (fst (run m s))) ->
    (forall a, twin S' (k a)) -> twin S (abind m k).
  Proof.
    intros D KD KA P H. destruct (snd (run m (fresh None))) as [a|e] eqn:E.
    - assert (R : forall s, run m s = (fst (run m s), Ok a)). { intros s. rewrite <- E, (D (fresh None) s). destruct (run m s); reflexivity. }
      assert (RB : forall s, run (abind m k) s = run (k a) (fst (run m s))). { intros s. now rewrite run_bind, R. }
      destruct (H a) as [L|(kx & X & Rt)]; [left|right; exists kx; split].
      + intros s1 s2 S1 S2 DD. unfold same_after. rewrite !RB. apply L; auto. eapply decc_bind; eauto. now rewrite R.
      + intros s Ss. rewrite RB. auto.
      + intros s1 s2 S1 S2 O1 O2 DD. unfold same_after. rewrite !RB. apply Rt; auto; [apply (owned_keeps kx s1); auto|apply (owned_keeps kx s2); auto|]. eapply decc_bind; eauto. now rewrite R.
    - left. intros s1 s2 _ _ DD. assert (RB : forall s, run (abind m k) s = (fst (run m s), Err e)).
      { intros s. rewrite run_bind. assert (R := D (fresh None) s). rewrite E in R. destruct (run m s) as [t r]. cbn in R. now subst r. }
      unfold same_after. rewrite !RB. cbn. rewrite !KD. split; [reflexivity|]. destruct DD as [DD|DD]; [exact DD|]. rewrite RB in DD. cbn in DD. now rewrite KD in DD.
  Qed.
  Lemma twin_curves {A} (S S' : state -> Prop) fp (m : act A) : twin S' m -> (forall s cs, S s -> S' (set_curves cs s)) ->
    twin S (cs <~ aread s_curves ;; _ <~ amod (set_curves (Some fp, snd cs)) ;; m).
  Proof.
    intros H P. set (g := fun s => set_curves (Some fp, snd (s_curves s)) s).
    assert (R : forall s, run (cs <~ aread s_curves ;; _ <~ amod (set_curves (Some fp, snd cs)) ;; m) s = run m (g s)).
    { intros s. rewrite run_bind, run_read, run_bind. reflexivity. }
    destruct H as [L|(kx & X & Rt)]; [left|right; exists kx; split].
    - intros s1 s2 S1 S2 DD. unfold same_after, decc_ok in *. rewrite !R in *. apply L; [now apply P|now apply P|exact DD].
    - intros s Ss. rewrite R. apply X. now apply P.
    - intros s1 s2 S1 S2 O1 O2 DD. unfold same_after, decc_ok in *. rewrite !R in *. apply Rt; [now apply P|now apply P|exact O1|exact O2|exact DD].
  Qed.
  Lemma T_same s1 s2 : sources s1 = sources s2 -> owned (sources s1) s1 -> owned (sources s1) s2 -> snd (run T s2) = snd (run T s1).
  Proof.
    intros SS O1 O2.
    assert (B : forall s, sources s = sources s1 -> owned (sources s1) s -> known = true ->
      snd (run (get_fref_bounds sv pv l c (Some (c_average c))) s) =
        match said with Err e => Err e | Ok _ => match own s1 with Ok tv => do lo <- qmin (snd tv); do hi <- qmax (snd tv); Ok (lo / 2 / np_pi, hi / 2 / np_pi)%Q | Err e => Err e end end).
    { intros s Hs O _. unfold get_fref_bounds. rewrite run_bind, run_said. destruct said as [u|e]; [|reflexivity]. rewrite run_bind, run_read. rewrite <- (average_of _ s s1 Hs). destruct O as [O|(s0 & tv & H0 & H1 & H2)].
      - rewrite O, run_bind, run_bind. destruct (run (average _) s) as [t [tv|e]]; cbn [snd]; [|reflexivity]. rewrite run_bind.
        change (run (amod (set_average (Some tv))) t) with (set_average (Some tv) t, Ok tt). cbv beta iota. rewrite run_ret, run_bind, run_lift. destruct (qmin _); [|reflexivity]. rewrite run_bind, run_lift. destruct (qmax _); reflexivity.
      - rewrite H2. rewrite (average_of _ s s0), H1 by congruence. rewrite run_bind, run_ret, run_bind, run_lift. destruct (qmin _); [|reflexivity]. rewrite run_bind, run_lift. destruct (qmax _); reflexivity. }
    assert (F : known = true -> snd (run (get_fref_out sv pv l c fr (c_average c)) s2) = snd (run (get_fref_out sv pv l c fr (c_average c)) s1)).
    { intros KN. unfold get_fref_out. rewrite !run_bind. assert (B1 := B s1 eq_refl O1 KN). assert (B2 := B s2 (eq_sym SS) O2 KN). rewrite <- B1 in B2.
      destruct (run (get_fref_bounds _ _ _ _ _) s1) as [t1 b1], (run (get_fref_bounds _ _ _ _ _) s2) as [t2 b2]. cbn in B2. subst b2. destruct b1 as [b|e]; [|reflexivity]. cbv zeta. destruct (filter _ fr); [|reflexivity].
      rewrite !run_bind, !run_lift. destruct (check_input_limits _ _ _); reflexivity. }
    unfold tref_fref_from_fref. cbv zeta. unfold known in F. destruct (existsb _ _); [|reflexivity]. rewrite !run_bind. specialize (F eq_refl).
    assert (K : forall s, sources (fst (run (get_fref_out sv pv l c fr (c_average c)) s)) = sources s) by (intros; apply (keeps_fref_out sv pv sources); reflexivity).
    assert (K1 := K s1). assert (K2 := K s2). destruct (run (get_fref_out _ _ _ _ _ _) s1) as [t1 r1], (run (get_fref_out _ _ _ _ _ _) s2) as [t2 r2]. cbn [fst snd] in *. subst r2.
    destruct r1 as [o|e]; [|reflexivity]. rewrite !run_bind. assert (A := average_of (Some (c_average c)) t2 t1 ltac:(congruence)).
    destruct (run (average _) t1) as [u1 q1], (run (average _) t2) as [u2 q2]. cbn [snd] in A. subst q2. destruct q1 as [tv|e]; [|reflexivity].
    rewrite !run_bind. change (run (amod (set_average (Some tv))) u1) with (set_average (Some tv) u1, Ok tt). change (run (amod (set_average (Some tv))) u2) with (set_average (Some tv) u2, Ok tt). cbv beta iota.
    rewrite !run_bind, !run_lift. destruct (check_monotonicity _); [|reflexivity]. rewrite !run_bind, !run_lift. destruct (interpolate _ _ _ _ _ _ _ _); [|reflexivity].
    rewrite !run_bind. destruct (existsb _ _); [rewrite !run_log; destruct (snd (dbg _ _ _)); reflexivity|reflexivity].
  Qed.
  Lemma twin_here {B} (S : state -> Prop) (k : list Q * list Q -> act B) kx :
    (forall s, S s -> sources s = kx) -> (forall a, keeps sources (k a)) -> (forall a, stable (k a)) -> twin S (abind T k).
  Proof.
    intros H Kk St. right. exists kx.
    assert (KD : keeps s_decc T) by (apply (keeps_tref sv pv s_decc); reflexivity). split.
    - intros s Ss. rewrite run_bind. assert (K := keeps_sources_T s). destruct (run T s) as [s1 [a|e]]; cbn [fst] in *; [rewrite Kk|]; rewrite K; auto.
    - intros s1 s2 S1 S2 O1 O2 DD. assert (E : snd (run T s2) = snd (run T s1)). { apply T_same; rewrite ?(H s1 S1), ?(H s2 S2); auto. }
      destruct (snd (run T s1)) as [a|e] eqn:R.
      + assert (DB := decc_bind T k s1 s2 a KD R DD). unfold same_after. rewrite !run_bind. destruct (run T s1) as [t1 r1], (run T s2) as [t2 r2]. cbn [fst snd] in *. subst r1 r2. apply St. exact DB.
      + unfold same_after. unfold decc_ok in DD. rewrite !run_bind in *. assert (K1 := KD s1). assert (K2 := KD s2). destruct (run T s1) as [t1 r1], (run T s2) as [t2 r2]. cbn [fst snd] in *. subst r1 r2. cbn. split; [reflexivity|]. cbn [fst] in DD; destruct DD; congruence.
  Qed.
  Ltac indep_now :=
    repeat first [ apply indep_lift | apply indep_ret | apply indep_log | apply indep_mod; reflexivity
          | apply indep_bind; [|intros ?]
          | match goal with
            | |- indep (if ?b then _ else _) => destruct b
            | |- indep (match ?x with _ => _ end) => destruct x
            end ].
  Lemma twin_from p a : twin (located p a) (measure_from_extrema ecc_of vneg sv pv rfit slope l c p a).
  Proof.
    unfold measure_from_extrema. cbv zeta.
    do 6 (apply twin_bind with (S' := located p a); [repeat det_step|keeping|keeping|apply keeps_located; keeping|intros ?]).
    eapply twin_bind with (S' := windowed p a _); [repeat det_step|keeping|keeping|intros s Hs; split; [exact Hs|reflexivity]|intros ?].
    eapply twin_bind; [apply det_curve|keeping|keeping|apply keeps_windowed; keeping|intros fp].
    match goal with |- twin ?S _ => apply (twin_curves S S); [|intros s cs Hs; exact Hs] end.
    eapply twin_bind; [apply det_curve|keeping|keeping|apply keeps_windowed; keeping|intros fa].
    eapply twin_bind with (S' := fun s => sources s = (Some p, Some a, Some _, (Some fp, Some fa))); [repeat det_step|keeping|keeping| |intros ?].
    { intros s [[H1 H2] H3]. unfold sources. cbn. rewrite H1, H2, H3. reflexivity. }
    rewrite FR. eapply twin_here; [intros s Hs; exact Hs| |].
    - intros tf. keeping.
    - intros tf. repeat first [ apply stable_bind_r; [apply stable_check|intros ?; indep_now]
                 | apply stable_bind; [indep_now; fail|intros ?] ].
  Qed.
  Lemma twin_measure : twin (fun _ => True) measure.
  Proof.
    unfold measure_ecc.
    do 4 (eapply twin_bind with (S' := fun _ => True); [repeat det_step|keeping|keeping|auto|intros ?]).
    match goal with |- twin _ (if ?b then _ else _) => destruct b end; [apply twin_stable, indep_stable; indep_now|].
    eapply twin_bind with (S' := fun _ => True); [repeat det_step|keeping|keeping|auto|intros ?].
    eapply twin_bind with (S' := fun _ => True); [repeat det_step|keeping|keeping|auto|intros [gp ga]].
    cbv zeta. cbn [fst snd].
    do 3 (eapply twin_bind with (S' := fun _ => True); [repeat det_step|keeping|keeping|auto|intros ?]).
    match goal with |- context [if c_precessing c && c_filtered c then ?x else ?y] => set (pa := if c_precessing c && c_filtered c then x else y) end.
    eapply twin_bind with (S' := located (fst pa) (snd pa)); [repeat det_step|keeping|keeping|intros s _; split; reflexivity|intros ?].
    do 3 (eapply twin_bind with (S' := located (fst pa) (snd pa)); [repeat det_step|keeping|keeping|apply keeps_located; keeping|intros ?]).
    apply twin_from.
  Qed.
  Lemma op_decc o s : o <> Measure -> s_decc (snd (op_run o s)) = s_decc s.
  Proof.
    intros N. destruct o as [|m|]; [congruence| |reflexivity]. rewrite run_op_bounds. apply (keeps_bounds sv pv s_decc). reflexivity.
  Qed.
  Lemma steady (G : list op -> state -> Prop) s0 : (forall o os s, o <> Forget -> G (o :: os) s -> G os (snd (op_run o s))) ->
    (forall os s, G os s -> decc_ok measure s0 s -> same_after measure s0 s) ->
    forall os s, ~ In Forget os -> G os s -> decc_ok measure s0 s -> forall x, In (RMeasure x) (fst (ops_run os s)) -> x = snd (run measure s0).
  Proof.
    intros GP SA. induction os as [|o os IH]; intros s N Gs D x I; [destruct I|]. cbn [run_ops] in I.
    assert (No : o <> Forget) by (intros ->; apply N; now left). assert (Nos : ~ In Forget os) by (intros X; apply N; now right).
    assert (A := GP o os s No Gs).
    assert (D' : decc_ok measure s0 (snd (op_run o s))).
    { destruct o as [|m|]; [|unfold decc_ok; rewrite op_decc by discriminate; exact D|congruence]. rewrite run_op_measure. right. cbn [snd]. eapply SA; eauto. }
    assert (Y : forall z, fst (op_run o s) = RMeasure z -> z = snd (run measure s0)).
    { intros z. destruct o as [|m|]; [|rewrite run_op_bounds; discriminate|congruence]. rewrite run_op_measure. cbn [fst]. intros H. injection H as <-. eapply SA; eauto. }
    destruct (op_run o s) as [y s1]. cbn [fst snd] in *. assert (IH' := IH s1 Nos A D' x). destruct (ops_run os s1) as [ys s2]. cbn [fst] in *. destruct I as [I|I]; auto.
  Qed.
  Lemma freq_repeat d os r x : ~ In Forget os -> In (RMeasure (Ok r)) (fst (ops_run os (fresh d))) -> In (RMeasure x) (fst (ops_run os (fresh d))) -> x = Ok r.
  Proof.
    intros N I1 I2. cut (exists G : list op -> state -> Prop, (forall o os s, o <> Forget -> G (o :: os) s -> G os (snd (op_run o s))) /\
        (forall os s, G os s -> decc_ok measure (fresh d) s -> same_after measure (fresh d) s) /\ G os (fresh d)).
    { intros (G & G1 & G2 & G3). rewrite (steady G _ G1 G2 os _ N G3 (or_introl eq_refl) x I2). symmetry. apply (steady G _ G1 G2 os _ N G3 (or_introl eq_refl) (Ok r) I1). }
    destruct twin_measure as [L|(kx & X & Rt)]; [exists (fun _ _ => True); auto|].
    destruct history_invariant as (J & JL & JF). destruct (lasting_measured J JL os _ r N (JF d) I1) as (s0 & s1 & J0 & M & P).
    assert (Z : s_zero s1 = Some false).
    { assert (C : s_zero s1 <> Some false -> False).
      { intros Z0. assert (F := fallback_always s0 s1 r M Z0). assert (F1 := proj1 (F (fresh d))). assert (F2 := proj1 (F (set_locations [] [] (fresh d)))). rewrite (X (fresh d) I) in F1. rewrite (X _ I), F1 in F2. discriminate F2. }
      destruct (s_zero s1) as [[]|]; [exfalso; apply C; discriminate|reflexivity|exfalso; apply C; discriminate]. }
    destruct (freq_measured ecc_of vzero vneg find_extrema sv pv rfit slope l c fr s0 s1 r FR M Z) as (_ & tv0 & tv & lo & hi & o & ts & A1 & _ & _ & _ & _ & _ & _ & _ & _ & s2 & S1 & S2 & S3 & S4 & OW).
    assert (KX : sources s2 = kx). { rewrite <- (X s0 I), M. unfold sources. cbn [fst]. congruence. }
    apply P in A1. clear P.
    exists (fun os s => ~ In Forget os /\ J s /\ s_average (snd (ops_run os s)) = Some tv). split; [|split; [|split; auto]].
    - intros o1 os1 s No (N1 & J1 & E1). assert (A := proj1 JL o1 s No J1). split; [intros I'; apply N1; now right|]. split; [exact A|]. cbn [run_ops] in E1. destruct (op_run o1 s) as [y t]. cbn [snd]. destruct (ops_run os1 t). exact E1.
    - intros os1 s (N1 & J1 & E1). apply Rt; auto; [left; reflexivity|]. destruct (s_average s) as [tv'|] eqn:AV; [right|now left]. exists s2, tv. split; [exact KX|]. split; [now rewrite OW|].
      apply (proj2 (lasting_history J JL os1 s N1 J1)) in AV as AV2. rewrite AV2 in E1. now rewrite AV, E1.
  Qed.
End Bounds.
Lemma time_repeat {V} (ecc_of : Q -> Q -> V) vzero vneg find sv pv rfit slope l c tr : c_interp c = SplineMethod -> c_ref c = TimeRef tr ->
  forall os s x y, In (RMeasure x) (fst (run_ops ecc_of vzero vneg find sv pv rfit slope l c os s)) ->
  In (RMeasure y) (fst (run_ops ecc_of vzero vneg find sv pv rfit slope l c os s)) -> x = y.
Proof.
  intros SP TR. set (m := measure_ecc ecc_of vzero vneg find sv pv rfit slope l c).
  assert (H : forall s0 os s, decc_ok m s0 s -> forall x, In (RMeasure x) (fst (run_ops ecc_of vzero vneg find sv pv rfit slope l c os s)) -> x = snd (run m s0)).
  { intros s0 os. induction os as [|o os IH]; intros s D x I; [destruct I|]. cbn [run_ops] in I.
    assert (D' : decc_ok m s0 (snd (run_op ecc_of vzero vneg find sv pv rfit slope l c o s))).
    { destruct o as [|b|]; [|unfold decc_ok; rewrite op_decc by discriminate; exact D|exact D]. rewrite run_op_measure. right. cbn [snd].
      apply (stable_measure ecc_of vzero vneg find sv pv rfit slope l c tr SP TR s0 s D). }
    assert (Y : forall z, fst (run_op ecc_of vzero vneg find sv pv rfit slope l c o s) = RMeasure z -> z = snd (run m s0)).
    { intros z. destruct o as [|b|]; [|rewrite run_op_bounds; discriminate|discriminate]. rewrite run_op_measure. cbn [fst]. intros H. injection H as <-.
      apply (stable_measure ecc_of vzero vneg find sv pv rfit slope l c tr SP TR s0 s D). }
    destruct (run_op ecc_of vzero vneg find sv pv rfit slope l c o s) as [y s1]. cbn [fst snd] in *. assert (IH' := IH s1 D' x).
    destruct (run_ops ecc_of vzero vneg find sv pv rfit slope l c os s1) as [ys s2]. cbn [fst] in *. destruct I as [I|I]; auto. }
  intros os s x y I1 I2. rewrite (H s os s (or_introl eq_refl) x I1). symmetry. exact (H s os s (or_introl eq_refl) y I2).
Qed.
