(** What the diagnostic plots show, and that they leave the measurement alone: proofs. *)
From Coq Require Import Lia Lqa.
From Verif Require Import Base BaseLemmas UtilsModel UtilsSpec UtilsLemmas ExtremaModel ExtremaLemmas RationalModel
  MeasureModel MeasureSpec LevelLemmas AverageLemmas MeasureLemmas MeasureResults MeasureBounds SegmentModel InitModel PlotModel PlotSpec PlotLemmas.
Open Scope string_scope.
Open Scope nat_scope.
Open Scope list_scope.

Section Shows.
  Context {V : Type} (ecc_of : Q -> Q -> V) (vzero : V) (vneg : V -> bool) (find_extrema : bool -> res (list nat)).
  Context (sv : list Q -> list Q -> nat -> Q -> Q) (pv : list Q -> list Q -> Q -> Q).
  Context (rfit : list Q -> list Q -> Z * Z -> res curve) (slope : list Q -> list V -> list bool).
  Notation measure := (measure_ecc ecc_of vzero vneg find_extrema sv pv rfit slope).
  Notation from_extrema := (measure_from_extrema ecc_of vneg sv pv rfit slope).
  Notation checks lo hi c := (filter (fun t => Qle_bool lo t && Qle_bool t hi) (c_data_t c)).

  Lemma curve_checks l c np na tc loc s1 s2 f : run (extrema_curve sv pv rfit l c np na tc loc) s1 = (s2, Ok f) -> exists v, eval_curve f tc = Ok v.
  Proof.
    intros H. unfold extrema_curve in H. destruct (length loc <? 2); [discriminate|].
    lifted H as x Gx. lifted H as y Gy. step H as g st E. lifted H as v Ev. lifted H as b Eb.
    assert (H' : f = g).
    { destruct b; [step H as u st' E2; rewrite run_log in E2|]; cbn in H; now injection H. }
    subst. eauto.
  Qed.
  Lemma from_checks l c p a s s' r : run (from_extrema l c p a) s = (s', Ok r) ->
    exists lo hi fp fa vp va, s_window s' = Some (lo, hi) /\ s_curves s' = (Some fp, Some fa) /\
      eval_curve fp (checks lo hi c) = Ok vp /\ eval_curve fa (checks lo hi c) = Ok va.
  Proof.
    intros H. assert (H0 := H). apply from_inv in H0.
    destruct H0 as (tp0 & ta0 & lo0 & hi0 & fp0 & fa0 & _ & _ & _ & _ & _ & _ & _ & SW & SC & _).
    unfold measure_from_extrema in H. cbv zeta in H.
    lifted H as tp Gp. lifted H as ta Ga. lifted H as pl Lp. lifted H as al La. lifted H as pf Fp. lifted H as af Fa.
    set (lo := Qmaxb pf af) in *. set (hi := Qminb pl al) in *.
    modified H. step H as fp sA Efp.
    step H as cs sA' E. unfold aread, run in E. cbn in E. injection E as <- <-.
    modified H. step H as fa sB Efa. modified H.
    assert (KW : s_window sB = Some (lo, hi)).
    { rewrite (keeps_run s_window _ _ _ _ (keeps_curve sv pv rfit s_window (fun _ _ => eq_refl) _ _ _ _ _ _) Efa). cbn.
      now rewrite (keeps_run s_window _ _ _ _ (keeps_curve sv pv rfit s_window (fun _ _ => eq_refl) _ _ _ _ _ _) Efp). }
    assert (K : s_window s' = Some (lo, hi) /\ s_curves s' = (Some fp, Some fa)).
    { split.
      - match type of H with run ?m ?s0 = _ => assert (X : keeps s_window m) end; [|rewrite (keeps_run s_window _ _ _ _ X H); exact KW].
        repeat first [apply keeps_ecc_check; reflexivity | apply keeps_tref; reflexivity | keeps_step].
      - match type of H with run ?m ?s0 = _ => assert (X : keeps s_curves m) end; [|rewrite (keeps_run s_curves _ _ _ _ X H); reflexivity].
        repeat first [apply keeps_ecc_check; reflexivity | apply keeps_tref; reflexivity | keeps_step]. }
    destruct K as [K1 K2]. destruct (curve_checks _ _ _ _ _ _ _ _ _ Efp) as [vp Vp]. destruct (curve_checks _ _ _ _ _ _ _ _ _ Efa) as [va Va].
    exists lo, hi, fp, fa, vp, va. auto.
  Qed.
  Lemma measured_checks l c s s' r : run (measure l c) s = (s', Ok r) -> s_zero s' = Some false ->
    exists lo hi fp fa vp va, s_window s' = Some (lo, hi) /\ s_curves s' = (Some fp, Some fa) /\
      eval_curve fp (checks lo hi c) = Ok vp /\ eval_curve fa (checks lo hi c) = Ok va.
  Proof.
    intros H Z. destruct (not_zero _ _ _ _ _ _ _ _ l c s s' r H Z) as (p & a & P & A & s0 & _ & _ & _ & _ & _ & F).
    eapply from_checks, F.
  Qed.

  Lemma agrees_intro {A} (R : Q -> A -> Prop) x y ts vs : (forall t a b, R t a -> R t b -> a = b) ->
    Forall2 R x y -> Forall2 R ts vs -> agrees x y ts vs.
  Proof.
    intros F H1 H2. split; [now apply Forall2_len in H1|]. intros i j t Hx Ht.
    assert (G : forall (l : list Q) (m : list A) k, Forall2 R l m -> nth_error l k = Some t -> exists v, nth_error m k = Some v /\ R t v).
    { intros l m k H. revert k. induction H as [|a b l m Hab H IH]; intros k E; [destruct k; discriminate|]. destruct k as [|k]; cbn in *; [injection E as ->; eauto|now apply IH]. }
    destruct (G _ _ _ H1 Hx) as (a & E1 & A1). destruct (G _ _ _ H2 Ht) as (b & E2 & A2). rewrite E1, E2. f_equal. eapply F; eauto.
  Qed.
  Lemma marks_ok vl (o : plotted V) ts (y : values V) : q_tref o = Some ts -> length ts = size y -> exists m, reference_marks vl o (Ok y) = Ok m /\ marked vl ts y m.
  Proof.
    intros T S. unfold reference_marks, marked. rewrite T. cbn [attr bind]. destruct ts as [|t [|t2 ts]]; cbn [length Nat.eqb andb]; eauto.
    destruct vl; cbn [andb]; [|eauto]. cbn [get nth_error bind]. unfold line. rewrite <- S. cbn. eauto.
  Qed.
  Lemma checks_keep lo hi c : keeps_exactly (within lo hi) (c_data_t c) (checks lo hi c).
  Proof. apply keeps_exactly_filter. intros x. apply inside_iff. Qed.
  Lemma checks_limits lo hi c : check_input_limits (checks lo hi c) lo hi = Ok tt.
  Proof. apply limits_ok. intros v I. apply filter_In in I. now apply inside_iff. Qed.

  Section Measured.
    Variables (l : Z) (ob : object) (s s' : state) (r : result V) (tr : list Q).
    Notation c := (b_config (o_base ob)).
    Notation o := (after_measurement ecc_of s' r (unmeasured l ob s)).
    Hypotheses (RUN : run (measure l c) s = (s', Ok r)) (NZ : s_zero s' = Some false) (REF : c_ref c = TimeRef tr).

    Lemma shows_ecc vl opts : exists lo hi out k x y rest o1, s_window s' = Some (lo, hi) /\ r_tref_out r = Some out /\
      plot_eccentricity ecc_of vl opts o = (o1, Ok (Line k x (Eccs y) :: rest)) /\
      keeps_exactly (within lo hi) (c_data_t c) x /\ agrees x y (entries out) (entries (r_eccentricity r)) /\
      marked vl (entries out) (Eccs (entries (r_eccentricity r))) rest.
    Proof.
      destruct (measured_checks _ _ _ _ _ RUN NZ) as (lo & hi & fp & fa & vp & va & W & C & Vp & Va).
      destruct (measured _ _ _ _ _ _ _ _ _ _ _ _ _ RUN NZ) as (p & a & tp & ta & lo1 & hi1 & fp1 & fa1 & ts & _ & _ & _ & _ & _ & W1 & C1 & _ & _ & _ & _ & EE & _ & R).
      rewrite REF in R. destruct R as (_ & out & RO & RE).
      rewrite W in W1. injection W1 as <- <-. rewrite C in C1. injection C1 as <- <-.
      set (x := checks lo hi c) in *. set (y := map2 ecc_of vp va).
      assert (EC : ecc_at_checks ecc_of (put_state s' (unmeasured l ob s)) = Ok y).
      { unfold ecc_at_checks, check_times. cbn [put_state q_state q_config unmeasured q_object]. rewrite W, C. cbn [attr bind fst snd].
        unfold q_config. cbn. unfold compute_eccentricity. fold x. unfold x at 1. rewrite checks_limits. cbn [bind]. rewrite Vp. cbn [bind]. rewrite Va. reflexivity. }
      assert (FY : Forall2 (fun t e => exists wp wa, fp t = Ok wp /\ fa t = Ok wa /\ e = ecc_of wp wa) x y).
      { apply eval_curve_spec in Vp, Va. unfold y. now apply map2_forall2. }
      assert (CT : check_times o = Ok x) by (unfold check_times; cbn; rewrite W; reflexivity).
      assert (QC : q_checks o = Some y) by (cbn [after_measurement q_checks unmeasured]; now rewrite EC).
      assert (QT : q_tref o = Some (entries out)) by (cbn; now rewrite RO).
      destruct (marks_ok vl o (entries out) (Eccs (entries (r_eccentricity r))) QT) as (m & M1 & M2).
      { cbn. rewrite RE. now apply Forall2_len in EE. }
      exists lo, hi, out, (with_defaults opts plain), x, y, m, o. split; [exact W|]. split; [exact RO|]. split; [|split; [apply checks_keep|split; [|exact M2]]].
      - unfold plot_eccentricity, fill_checks. rewrite QC. cbn [bind]. rewrite CT. cbn [bind]. unfold line. cbn [size]. rewrite (Forall2_len _ _ _ FY), Nat.eqb_refl. cbn [bind].
        change (attr (q_ecc o)) with (Ok (entries (r_eccentricity r))). cbn [bind]. rewrite M1. reflexivity.
      - rewrite RE. eapply agrees_intro; [|exact FY|exact EE]. cbn. intros t e1 e2 (w1 & w2 & A1 & A2 & ->) (w3 & w4 & A3 & A4 & ->). congruence.
    Qed.
    Lemma shows_mean vl opts : exists lo hi out k x y rest, s_window s' = Some (lo, hi) /\ r_tref_out r = Some out /\
      plot_mean_anomaly vl opts o = (o, Ok (Line k x (Numbers y) :: rest)) /\
      keeps_exactly (within lo hi) (c_data_t c) x /\ agrees x y (entries out) (entries (r_mean_anomaly r)) /\
      marked vl (entries out) (Numbers (entries (r_mean_anomaly r))) rest.
    Proof.
      destruct (measured _ _ _ _ _ _ _ _ _ _ _ _ _ RUN NZ) as (p & a & tp & ta & lo & hi & fp1 & fa1 & ts & P & _ & SP & _ & _ & W & C1 & _ & _ & _ & _ & EE & EM & R).
      rewrite REF in R. destruct R as (_ & out & RO & RE).
      set (x := checks lo hi c) in *.
      assert (CT : check_times o = Ok x) by (unfold check_times; cbn; rewrite W; reflexivity).
      assert (QT : q_tref o = Some (entries out)) by (cbn; now rewrite RO).
      destruct (marks_ok vl o (entries out) (Numbers (entries (r_mean_anomaly r))) QT) as (m & M1 & M2).
      { cbn. rewrite EM, map_length. now rewrite RE. }
      exists lo, hi, out, (with_defaults opts plain), x, (map (mean_anomaly_at tp) x), m. split; [exact W|]. split; [exact RO|]. split; [|split; [apply checks_keep|split; [|exact M2]]].
      - unfold plot_mean_anomaly. rewrite CT. cbn [bind]. change (q_state o) with s'. rewrite W, P. cbn [attr bind fst snd].
        change (q_config o) with c. apply gather_samples in SP. rewrite SP. cbn [bind]. unfold compute_mean_anomaly. unfold x at 1. rewrite checks_limits. cbn [bind].
        unfold line. cbn [size]. rewrite map_length, Nat.eqb_refl. cbn [bind]. change (attr (q_mean o)) with (Ok (entries (r_mean_anomaly r))). cbn [bind]. rewrite M1. reflexivity.
      - rewrite RE, EM. apply (agrees_intro (fun t m => m = mean_anomaly_at tp t)); [congruence| |]; [generalize x|generalize ts]; intros q; induction q; cbn; auto.
    Qed.
  End Measured.

  (** ** the phase ratios *)
  Lemma removelast_nth {A} (d : list A) i : S i < length d -> nth_error (removelast d) i = nth_error d i.
  Proof.
    revert i. induction d as [|a d IH]; intros i H; [cbn in H; lia|]. destruct d as [|b d]; [cbn in H; lia|].
    change (removelast (a :: b :: d)) with (a :: removelast (b :: d)). destruct i as [|i]; [reflexivity|]. cbn [nth_error]. apply IH. cbn in *. lia.
  Qed.
  Lemma removelast_len {A} (d : list A) : length (removelast d) = length d - 1.
  Proof. induction d as [|a d IH]; [reflexivity|]. destruct d; [reflexivity|]. change (length (removelast (a :: a0 :: d))) with (S (length (removelast (a0 :: d)))). rewrite IH. cbn. lia. Qed.
  Lemma tl_nth {A} (d : list A) i : nth_error (tl d) i = nth_error d (S i).
  Proof. destruct d; [destruct i; reflexivity|reflexivity]. Qed.
  Lemma tl_len {A} (d : list A) : length (tl d) = length d - 1.
  Proof. destruct d; cbn; lia. Qed.
  Lemma ratios_curve c loc rs ts : phase_ratios c loc = Ok rs -> gather (c_t c) (tl loc) = Ok ts -> ratio_curve c loc (tl ts) (tl rs).
  Proof.
    unfold phase_ratios. intros H T. apply bind_ok in H. destruct H as (ph & G & H). cbv zeta in H. apply bind_ok in H. destruct H as (q & D & H). apply Ok_inj in H. subst rs.
    cbn [tl]. set (hs := map (fun x => x / 2)%Q ph) in *. unfold qdivs in D. destruct (existsb _ _) eqn:Z in D; [discriminate|]. apply Ok_inj in D. subst q.
    assert (LP := gather_length _ _ _ G). assert (LT := gather_length _ _ _ T). assert (LH : length hs = length loc) by (unfold hs; now rewrite map_length).
    split; [rewrite tl_len, LT, tl_len; lia|]. split; [rewrite map2_length, tl_len, removelast_len, qdiff_length; lia|].
    intros i a b d Ha Hb Hd.
    assert (Ph : forall k j, nth_error loc k = Some j -> exists f, nth_error (c_phase c) j = Some f /\ nth_error hs k = Some (f / 2)%Q).
    { intros k j Hk. destruct (nth_error ph k) as [f|] eqn:F.
      - exists f. split; [|unfold hs; now rewrite nth_error_map, F]. apply (gather_nth _ _ _ G) in F. destruct F as (j' & F1 & F2). congruence.
      - apply nth_error_None in F. assert (nth_error loc k <> None) by congruence. apply nth_error_Some in H. lia. }
    destruct (Ph _ _ Ha) as (fa & P1 & H1). destruct (Ph _ _ Hb) as (fb & P2 & H2). destruct (Ph _ _ Hd) as (fd & P3 & H3).
    assert (D1 : nth_error (qdiff hs) i = Some (fb / 2 - fa / 2)%Q) by (apply qdiff_nth; eauto).
    assert (D2 : nth_error (qdiff hs) (S i) = Some (fd / 2 - fb / 2)%Q) by (apply qdiff_nth; eauto).
    assert (LI : S i < length (qdiff hs)) by (apply nth_error_Some; congruence).
    assert (NI : nth_error (removelast (qdiff hs)) i = Some (fb / 2 - fa / 2)%Q) by (rewrite removelast_nth by exact LI; exact D1).
    destruct (nth_error ts (S i)) as [t|] eqn:Et.
    2:{ apply nth_error_None in Et. rewrite LT, tl_len in Et. assert (nth_error loc (S (S i)) <> None) by congruence. apply nth_error_Some in H. lia. }
    assert (TT := Et). apply (gather_nth _ _ _ T) in TT. destruct TT as (j & J1 & J2). rewrite tl_nth in J1. assert (j = d) by congruence. subst j.
    exists fa, fb, fd, t, ((fd / 2 - fb / 2) / (fb / 2 - fa / 2))%Q. split; [exact P1|]. split; [exact P2|]. split; [exact P3|]. split; [exact J2|].
    split; [now rewrite tl_nth|]. split; [rewrite nth_error_map2, tl_nth, D2, NI; reflexivity|].
    assert (NZ : ~ (fb / 2 - fa / 2 == 0)%Q).
    { intros N. rewrite <- not_true_iff_false in Z. apply Z. apply existsb_exists. exists (fb / 2 - fa / 2)%Q. split; [eapply nth_error_In; eauto|now apply Qeq_bool_iff]. }
    assert (NZ' : ~ (fb - fa == 0)%Q) by (intros N; apply NZ; setoid_replace (fb / 2 - fa / 2)%Q with ((fb - fa) / 2)%Q by field; rewrite N; reflexivity).
    setoid_replace (fd / 2 - fb / 2)%Q with ((fd - fb) * (1 # 2))%Q by field. setoid_replace (fb / 2 - fa / 2)%Q with ((fb - fa) * (1 # 2))%Q by field. field. exact NZ'.
  Qed.
  Lemma shows_ratio l ob s s' r opts o1 arts : plot_phase_ratio opts (after_measurement ecc_of s' r (unmeasured l ob s)) = (o1, Ok arts) ->
    exists p a kp ka xp yp xa ya, s_peri s' = Some p /\ s_apo s' = Some a /\
      arts = [Line kp xp (Numbers yp); Line ka xa (Numbers ya)] /\
      ratio_curve (b_config (o_base ob)) p xp yp /\ ratio_curve (b_config (o_base ob)) a xa ya.
  Proof.
    set (o := after_measurement ecc_of s' r (unmeasured l ob s)). unfold plot_phase_ratio. cbv zeta.
    assert (F := proj1 (fill_ratios_spec ecc_of sv pv slope o)). destruct (fill_ratios o) as [o2 rr]. cbn [snd] in F. intros H. injection H as -> H.
    change (q_config o) with (b_config (o_base ob)) in H. change (q_state o) with s' in H.
    apply bind_ok in H. destruct H as (p & P & H). apply bind_ok in H. destruct H as (tp & TP & H). apply bind_ok in H. destruct H as (rs & RS & H).
    apply bind_ok in H. destruct H as (lp & LP & H). apply bind_ok in H. destruct H as (a & A & H). apply bind_ok in H. destruct H as (ta & TA & H).
    apply bind_ok in H. destruct H as (la & LA & H). apply Ok_inj in H. subst arts.
    destruct (s_peri s') as [p'|] eqn:SP; [|discriminate]. apply Ok_inj in P. subst p'. destruct (s_apo s') as [a'|] eqn:SA; [|discriminate]. apply Ok_inj in A. subst a'.
    assert (RR : phase_ratios (b_config (o_base ob)) p = Ok (fst rs) /\ phase_ratios (b_config (o_base ob)) a = Ok (snd rs)).
    { subst rr. unfold ratios_of in RS. unfold o in RS. cbn [after_measurement q_ratios q_level unmeasured q_state] in RS. destruct (l <? 1)%Z.
      - rewrite SP, SA in RS. cbn [attr bind] in RS. change (q_config _) with (b_config (o_base ob)) in RS. destruct (phase_ratios _ p) eqn:E1; [|discriminate]. destruct (phase_ratios _ a) eqn:E2; [|discriminate]. cbn in RS. apply Ok_inj in RS. subst rs. auto.
      - rewrite SP, SA in RS. change (q_config _) with (b_config (o_base ob)) in RS. destruct (phase_ratios _ p) eqn:E1; [|discriminate]. destruct (phase_ratios _ a) eqn:E2; [|discriminate]. apply Ok_inj in RS. subst rs. auto. }
    destruct RR as [R1 R2]. unfold line in LP, LA. destruct (_ =? _) in LP; [|discriminate]. destruct (_ =? _) in LA; [|discriminate]. apply Ok_inj in LP, LA. subst lp la.
    exists p, a. do 6 eexists. split; [reflexivity|]. split; [reflexivity|]. split; [reflexivity|]. split; now apply ratios_curve.
  Qed.

End Shows.
Section Drawn.
  Context {V : Type} (ecc_of : Q -> Q -> V).
  Context (sv : list Q -> list Q -> nat -> Q -> Q) (pv : list Q -> list Q -> Q -> Q) (slope : list Q -> list V -> list bool).
  (** ** limits of the vertical axis *)
  Lemma symmetric_ok d lim : symmetric d = Ok lim -> exists lo hi, lim = @Limits V lo hi /\ (lo == - hi)%Q /\ forall v, In v d -> (lo <= v <= hi)%Q.
  Proof.
    unfold symmetric. intros H. apply bind_ok in H. destruct H as (m & E1 & H). apply bind_ok in H. destruct H as (M & E2 & H). cbv zeta in H. apply Ok_inj in H. subst lim.
    apply qmin_ok in E1. apply qmax_ok in E2. destruct E1 as [I1 E1], E2 as [I2 E2]. destruct (Qmaxb_spec M (- m)) as (A & B & _). assert (X := E1 _ I2).
    do 2 eexists. split; [reflexivity|]. split; [ring|]. intros v I. specialize (E1 _ I). specialize (E2 _ I). lra.
  Qed.
  Lemma padded_ok d lim : (exists v, In v d /\ (0 <= v)%Q) -> padded d = Ok lim -> exists lo hi, lim = @Limits V lo hi /\ forall v, In v d -> (lo <= v <= hi)%Q.
  Proof.
    unfold padded. intros (v0 & I0 & P) H. apply bind_ok in H. destruct H as (m & E1 & H). apply bind_ok in H. destruct H as (M & E2 & H). cbv zeta in H. apply Ok_inj in H. subst lim.
    apply qmin_ok in E1. apply qmax_ok in E2. destruct E1 as [I1 E1], E2 as [I2 E2]. assert (X := E2 _ I0).
    do 2 eexists. split; [reflexivity|]. intros v I. specialize (E1 _ I). specialize (E2 _ I). lra.
  Qed.
  Lemma tight_ok d lim : tight d = Ok lim -> exists lo hi, lim = @Limits V lo hi /\ forall v, In v d -> (lo <= v <= hi)%Q.
  Proof.
    unfold tight. intros H. apply bind_ok in H. destruct H as (m & E1 & H). apply bind_ok in H. destruct H as (M & E2 & H). apply Ok_inj in H. subst lim.
    apply qmin_ok in E1. apply qmax_ok in E2. do 2 eexists. split; [reflexivity|]. intros v I. split; [now apply E1|now apply E2].
  Qed.
  Lemma line_ok k x (y : values V) a : line k x y = Ok a -> a = Line k x y.
  Proof. unfold line. destruct (_ =? _); [|discriminate]. intros H. now apply Ok_inj in H. Qed.
  Lemma dots_ok (o : plotted V) d arts : extrema_dots o d = Ok arts -> exists kp xp yp ka xa ya, arts = [@Line V kp xp (Numbers yp); Line ka xa (Numbers ya)] /\
    (forall v, In v yp -> In v d) /\ (forall v, In v ya -> In v d).
  Proof.
    unfold extrema_dots. cbv zeta. intros H. repeat (apply bind_ok in H; destruct H as (? & ? & H)). apply Ok_inj in H. subst arts.
    repeat match goal with E : line _ _ _ = Ok _ |- _ => apply line_ok in E; subst end.
    assert (G : forall loc ys, gather d loc = Ok ys -> forall v, In v ys -> In v d).
    { intros loc ys E v I. apply In_nth_error in I. destruct I as (k & I). apply (gather_nth _ _ _ E) in I. destruct I as (j & _ & I). eapply nth_error_In; eauto. }
    do 6 eexists. split; [reflexivity|]. split; eapply G; eauto.
  Qed.
  Lemma holds_data d kd x kp xp yp ka xa ya lo hi rest : (forall v, In v d -> (lo <= v <= hi)%Q) -> (forall v, In v yp -> In v d) -> (forall v, In v ya -> In v d) ->
    (forall a : artist V, In a rest -> exists t, a = VLine t) ->
    holds_all ([Line kd x (Numbers d)] ++ [Line kp xp (Numbers yp); Line ka xa (Numbers ya)] ++ Limits lo hi :: rest).
  Proof.
    intros A P1 P2 R lo' hi' k x' y v I1 I2 I3. cbn [app] in I1, I2. destruct I1 as [E|[E|[E|[E|E]]]]; try discriminate E.
    - injection E as <- <-. destruct I2 as [E|[E|[E|[E|E]]]]; [injection E as <- <- <-|injection E as <- <- <-|injection E as <- <- <-|discriminate E|destruct (R _ E); discriminate]; auto.
    - destruct (R _ E); discriminate.
  Qed.
  Lemma limits_hold k vl opts o o1 arts : draw ecc_of sv pv slope k vl opts o = (o1, Ok arts) ->
    In k [PData; PAmp; PResAmp; PResOmega] -> (k = PData -> says_residual (o_method (q_object o)) = false -> exists v, In v (o_data (q_object o)) /\ (0 <= v)%Q) ->
    (exists lo hi, In (Limits lo hi) arts) /\ holds_all arts.
  Proof.
    intros H I N. destruct k; try (exfalso; cbn in I; intuition discriminate); cbn [draw] in H.
    - unfold plot_data_used in H. cbv zeta in H. injection H as <- H. apply bind_ok in H. destruct H as (ld & E1 & H). apply bind_ok in H. destruct H as (ds & E2 & H).
      apply bind_ok in H. destruct H as (lim & E3 & H). apply bind_ok in H. destruct H as (tl & _ & H). apply bind_ok in H. destruct H as (tr & _ & H). apply bind_ok in H. destruct H as (m & E4 & H). apply Ok_inj in H. subst arts.
      apply line_ok in E1. subst ld. destruct (dots_ok _ _ _ E2) as (kp & xp & yp & ka & xa & ya & -> & P1 & P2).
      assert (L : exists lo hi, lim = @Limits V lo hi /\ forall v, In v (o_data (q_object o)) -> (lo <= v <= hi)%Q).
      { destruct (says_residual _) eqn:SR; [apply symmetric_ok in E3; destruct E3 as (lo & hi & A & _ & B); eauto|apply padded_ok in E3; auto]. }
      destruct L as (lo & hi & -> & L). split; [exists lo, hi; cbn; tauto|]. apply (holds_data _ _ _ _ _ _ _ _ _ _ _ (VLine tl :: m)); auto.
      intros a [<-|J]; [eauto|]. destruct (_ && vl) in E4; [|apply Ok_inj in E4; subst m; destruct J]. apply bind_ok in E4. destruct E4 as (t & _ & E4). apply Ok_inj in E4. subst m. destruct J as [<-|[]]. eauto.
    - unfold plot_amp_gw in H. cbv zeta in H. injection H as <- H. apply bind_ok in H. destruct H as (ld & E1 & H). apply bind_ok in H. destruct H as (ds & E2 & H). apply bind_ok in H. destruct H as (lim & E3 & H). apply Ok_inj in H. subst arts.
      apply line_ok in E1. subst ld. destruct (dots_ok _ _ _ E2) as (kp & xp & yp & ka & xa & ya & -> & P1 & P2). apply tight_ok in E3. destruct E3 as (lo & hi & -> & L).
      split; [exists lo, hi; cbn; tauto|]. apply holds_data; auto. intros a [].
    - unfold plot_residual in H. injection H as <- H. apply bind_ok in H. destruct H as (rs & E0 & H). apply bind_ok in H. destruct H as (ld & E1 & H). apply bind_ok in H. destruct H as (ds & E2 & H). apply bind_ok in H. destruct H as (lim & E3 & H). apply Ok_inj in H. subst arts.
      apply line_ok in E1. subst ld. destruct (dots_ok _ _ _ E2) as (kp & xp & yp & ka & xa & ya & -> & P1 & P2). apply symmetric_ok in E3. destruct E3 as (lo & hi & -> & _ & L).
      split; [exists lo, hi; cbn; tauto|]. apply holds_data; auto. intros a [].
    - unfold plot_residual in H. injection H as <- H. apply bind_ok in H. destruct H as (rs & E0 & H). apply bind_ok in H. destruct H as (ld & E1 & H). apply bind_ok in H. destruct H as (ds & E2 & H). apply bind_ok in H. destruct H as (lim & E3 & H). apply Ok_inj in H. subst arts.
      apply line_ok in E1. subst ld. destruct (dots_ok _ _ _ E2) as (kp & xp & yp & ka & xa & ya & -> & P1 & P2). apply symmetric_ok in E3. destruct E3 as (lo & hi & -> & _ & L).
      split; [exists lo, hi; cbn; tauto|]. apply holds_data; auto. intros a [].
  Qed.
  Lemma limits_claim k vl opts o o1 arts : draw ecc_of sv pv slope k vl opts o = (o1, Ok arts) ->
    In k [PData; PAmp; PResAmp; PResOmega] ->
    (k = PData -> ~ In (o_method (q_object o)) ["ResidualAmplitude"; "ResidualFrequency"] -> exists v, In v (o_data (q_object o)) /\ (0 <= v)%Q) ->
    (exists lo hi, In (Limits lo hi) arts) /\ holds_all arts.
  Proof.
    intros H I N. apply (limits_hold k vl opts o o1 arts H I). intros K S. apply N; [exact K|]. intros [E|[E|[]]]; rewrite <- E in S; discriminate S.
  Qed.

  (** ** options of the caller *)
  Lemma options_ignored k vl opts o : In k [PData; PRatio; PAmp; PResAmp; PResOmega] -> draw ecc_of sv pv slope k vl opts o = draw ecc_of sv pv slope k vl [] o.
  Proof. intros I. destruct k; try (exfalso; cbn in I; intuition discriminate); reflexivity. Qed.
  Lemma with_kwargs_err own opts kw : In kw (map fst own) -> In kw (map fst opts) -> with_kwargs own opts = Err TypeError.
  Proof.
    intros A B. unfold with_kwargs. replace (existsb _ opts) with true; [reflexivity|]. symmetry. apply existsb_exists. apply in_map_iff in B. destruct B as (kv & <- & B).
    exists kv. split; [exact B|]. apply existsb_exists. exists (fst kv). split; [exact A|apply String.eqb_refl].
  Qed.
  Lemma options_refused k vl opts o kw o1 arts : In k [POmega; PAverage] -> In kw ["c"; "label"] -> In kw (map fst opts) ->
    draw ecc_of sv pv slope k vl opts o <> (o1, Ok arts).
  Proof.
    intros I K O H. destruct k; try (exfalso; cbn in I; intuition discriminate); cbn [draw] in H.
    - unfold plot_omega_gw in H. cbv zeta in H. injection H as <- H. apply bind_ok in H. destruct H as (ts & _ & H). apply bind_ok in H. destruct H as (fp & _ & H). apply bind_ok in H. destruct H as (vp & _ & H).
      rewrite (with_kwargs_err _ opts kw) in H; [discriminate|exact K|exact O].
    - unfold plot_omega_gw_average in H. cbv zeta in H. destruct (fill_average sv pv o) as [o2 tv]. injection H as <- H. apply bind_ok in H. destruct H as (t & _ & H).
      rewrite (with_kwargs_err _ opts kw) in H; [discriminate|exact K|exact O].
  Qed.
  Lemma with_defaults_ok opts : (forall kv, In kv opts -> In kv (with_defaults opts plain)) /\ In "c" (map fst (with_defaults opts plain)) /\
    (In "c" (map fst opts) -> with_defaults opts plain = opts).
  Proof.
    unfold with_defaults, plain. split; [intros kv I; apply in_or_app; now left|]. cbn [filter fst]. destruct (existsb (String.eqb "c") (map fst opts)) eqn:E; cbn [negb].
    - rewrite app_nil_r. apply existsb_exists in E. destruct E as (x & I & X). apply String.eqb_eq in X. subst x. auto.
    - rewrite map_app. split; [apply in_or_app; right; cbn; auto|]. intros I. exfalso. rewrite <- not_true_iff_false in E. apply E. apply existsb_exists. exists "c". split; [exact I|reflexivity].
  Qed.
  Lemma options_used k vl opts o o1 arts : draw ecc_of sv pv slope k vl opts o = (o1, Ok arts) -> In k [PEcc; PMean; PDecc] ->
    exists ks x y rest, arts = Line ks x y :: rest /\ (forall kv, In kv opts -> In kv ks) /\ In "c" (map fst ks) /\ (In "c" (map fst opts) -> ks = opts).
  Proof.
    intros H I. exists (with_defaults opts plain). assert (W := with_defaults_ok opts). destruct k; try (exfalso; cbn in I; intuition discriminate); cbn [draw] in H.
    - unfold plot_eccentricity in H. destruct (fill_checks ecc_of o) as [o2 e]. injection H as <- H. repeat (apply bind_ok in H; destruct H as (? & ? & H)). apply Ok_inj in H. subst arts.
      match goal with E : line _ _ _ = Ok _ |- _ => apply line_ok in E; subst end. eauto.
    - unfold plot_mean_anomaly in H. injection H as <- H. repeat (apply bind_ok in H; destruct H as (? & ? & H)). apply Ok_inj in H. subst arts.
      match goal with E : line _ _ _ = Ok _ |- _ => apply line_ok in E; subst end. eauto.
    - unfold plot_decc_dt in H. destruct (fill_slopes ecc_of slope o) as [o2 e]. injection H as <- H. repeat (apply bind_ok in H; destruct H as (? & ? & H)). apply Ok_inj in H. subst arts.
      match goal with E : line _ _ _ = Ok _ |- _ => apply line_ok in E; subst end. eauto.
  Qed.

  (** ** plots and measurements *)
  Lemma plots_bounds l ps o cv :
    snd (run (get_fref_bounds sv pv l (q_config o) None) (q_state (fst (plot_all ecc_of sv pv slope ps o cv)))) =
    snd (run (get_fref_bounds sv pv l (q_config o) None) (q_state o)).
  Proof.
    assert (L := all_later ecc_of sv pv slope ps o cv). set (o' := fst (plot_all _ _ _ _ _ _ _)) in *.
    assert (G : forall x : plotted V, q_config x = q_config o -> snd (run (get_fref_bounds sv pv l (q_config o) None) (q_state x)) =
      bind (snd (if c_use_only (q_config o) then dbg "fref bounds only for the short segment" l false else lret tt)) (fun _ =>
      do tv <- mean_of sv pv x; do lo <- qmin (snd tv); do hi <- qmax (snd tv); Ok (lo / 2 / np_pi, hi / 2 / np_pi)%Q)).
    { intros x Cx. unfold get_fref_bounds. rewrite run_bind. set (w := if c_use_only (q_config o) then alog _ else _).
      assert (W : run w (q_state x) = (q_state x, snd (if c_use_only (q_config o) then dbg "fref bounds only for the short segment" l false else lret tt))).
      { unfold w. destruct (c_use_only _); [apply run_log|reflexivity]. }
      rewrite W. destruct (snd (if c_use_only (q_config o) then _ else _)) as [u|e]; [|reflexivity]. cbn [bind].
      rewrite run_bind, run_read. unfold mean_of. rewrite Cx. destruct (s_average (q_state x)) as [tv|] eqn:A.
      - rewrite run_bind, run_ret. cbn [bind]. rewrite run_bind, run_lift. destruct (qmin (snd tv)); [|reflexivity]. rewrite run_bind, run_lift. destruct (qmax (snd tv)); reflexivity.
      - rewrite !run_bind. destruct (run (get_omega_gw_average sv pv (q_config o) None) (q_state x)) as [s1 [tv|e]]; [|reflexivity]. cbn [snd bind].
        cbn [run amod aret abind snd fst]. rewrite run_bind, run_lift. destruct (qmin (snd tv)); [|reflexivity]. rewrite run_bind, run_lift. destruct (qmax (snd tv)); reflexivity. }
    rewrite (G o'), (G o), (lt_mean_of _ _ _ _ _ _ L); auto. unfold q_config. now rewrite (lt_object _ _ _ _ _ _ L).
  Qed.
End Drawn.
Section Again.
  Context {V : Type} (ecc_of : Q -> Q -> V) (vzero : V) (vneg : V -> bool) (find_extrema : bool -> res (list nat)).
  Context (sv : list Q -> list Q -> nat -> Q -> Q) (pv : list Q -> list Q -> Q -> Q).
  Context (rfit : list Q -> list Q -> Z * Z -> res curve) (slope : list Q -> list V -> list bool).
  Notation measure := (measure_ecc ecc_of vzero vneg find_extrema sv pv rfit slope).

  Lemma blind_curve l c np na tc loc : blind (extrema_curve sv pv rfit l c np na tc loc).
  Proof. unfold extrema_curve, rational_curve. cbv zeta. repeat blind_step. Qed.
  Lemma blind_measure l c tr : c_ref c = TimeRef tr -> blind (measure l c).
  Proof.
    intros R. unfold measure_ecc, measure_from_extrema, check_ecc_monotone. rewrite R. cbv zeta.
    repeat first [apply blind_curve|blind_step].
  Qed.
  Lemma check_stores l c fp fa lo hi tc s s' u : run (check_ecc_monotone ecc_of slope l c fp fa lo hi tc) s = (s', Ok u) -> exists d, s_decc s' = Some d.
  Proof.
    rewrite run_check. destruct (s_decc s) as [d|] eqn:D; [intros H; injection H as <- _; eauto|].
    destruct (check_value _ _ _ _ _ _ _) as [d|]; [|discriminate]. intros H. injection H as <- _. cbn. eauto.
  Qed.
  Lemma measured_decc l c s s' r : run (measure l c) s = (s', Ok r) -> s_zero s' = Some false ->
    (exists d, s_decc s' = Some d) /\ (forall fr, c_ref c = FreqRef fr -> exists tv, s_average s' = Some tv).
  Proof.
    intros H Z. apply measure_inv in H. destruct H as (p0 & a0 & _ & _ & [(_ & _ & _ & -> & _)|(_ & _ & gp & ga & p & a & _ & _ & H)]); [discriminate Z|].
    split.
    - unfold measure_from_extrema in H. cbv zeta in H.
      repeat match type of H with
             | run (abind (check_ecc_monotone _ _ _ _ _ _ _ _ _) _) _ = _ => fail 1
             | _ => apply run_bind_ok in H; destruct H as (? & ? & _ & H)
             end.
      apply run_bind_ok in H. destruct H as (u & sd & D & H). apply check_stores in D. destruct D as (d & D). exists d. rewrite <- D.
      apply (keeps_run s_decc _ _ _ _) in H; [exact H|]. repeat keeps_step.
    - intros fr R. apply from_inv in H. destruct H as (tp & ta & lo & hi & fp & fa & tref & fref & tout & ecc & _ & _ & _ & _ & _ & _ & _ & _ & H & _).
      rewrite R in H. destruct H as (_ & s1 & s2 & T & _ & A & _). apply tref_inv in T. destruct T as (_ & tv0 & tv & lo' & hi' & _ & _ & _ & _ & _ & _ & _ & ->).
      exists tv. rewrite <- A. reflexivity.
  Qed.
  Lemma later_state o o' : later ecc_of sv pv slope o o' -> (exists d, s_decc (q_state o) = Some d) -> exists a, q_state o' = set_average a (q_state o).
  Proof.
    intros L (d & D). exists (s_average (q_state o')). destruct L as [_ _ _ _ _ A1 A2 A3 A4 A5 A6 _ [A7|A7] _ _ _ _]; [|congruence].
    destruct (q_state o), (q_state o'); cbn in *. subst. reflexivity.
  Qed.
  Lemma plots_measure l ob s s' r ps cv : run (measure l (b_config (o_base ob))) s = (s', Ok r) -> s_zero s' = Some false ->
    let o := after_measurement ecc_of s' r (unmeasured l ob s) in
    snd (run (measure l (b_config (o_base ob))) (q_state (fst (plot_all ecc_of sv pv slope ps o cv)))) = snd (run (measure l (b_config (o_base ob))) s').
  Proof.
    intros RUN Z o. destruct (measured_decc _ _ _ _ _ RUN Z) as [D A]. assert (L := all_later ecc_of sv pv slope ps o cv).
    set (o' := fst (plot_all _ _ _ _ _ _ _)) in *. destruct (later_state _ _ L D) as (a & S). rewrite S. change (q_state o) with s'.
    destruct (c_ref (b_config (o_base ob))) as [tr|fr] eqn:R.
    - rewrite (blind_measure _ _ _ R). reflexivity.
    - destruct (A _ eq_refl) as (tv & V1). f_equal. f_equal. assert (V2 : s_average (q_state o') = Some tv).
      { destruct (lt_average _ _ _ _ _ _ L) as [X|(X & _)]; change (q_state o) with s' in X; congruence. }
      rewrite S in V2. cbn in V2. subst a. change (q_state o) with s'. destruct s'. cbn in *. now subst.
  Qed.
End Again.
