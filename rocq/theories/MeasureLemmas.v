(** Proofs about a whole measurement. *)
From Verif Require Import Base BaseLemmas UtilsModel UtilsSpec UtilsLemmas ExtremaModel ExtremaSpec ExtremaLemmas
  RationalModel MeasureModel MeasureSpec LevelLemmas.
Open Scope nat_scope.

(** ** attributes a computation does not touch *)
Definition keeps {A B} (f : state -> B) (m : act A) : Prop := forall s, f (fst (run m s)) = f s.
Lemma keeps_lift {A B} (f : state -> B) (r : res A) : keeps f (alift r).
Proof. intros s. reflexivity. Qed.
Lemma keeps_ret {A B} (f : state -> B) (r : A) : keeps f (aret r).
Proof. intros s. reflexivity. Qed.
Lemma keeps_log {A B} (f : state -> B) (r : lg A) : keeps f (alog r).
Proof. intros s. reflexivity. Qed.
Lemma keeps_read {A B} (f : state -> B) (g : state -> A) : keeps f (aread g).
Proof. intros s. reflexivity. Qed.
Lemma keeps_mod {B} (f : state -> B) g : (forall s, f (g s) = f s) -> keeps f (amod g).
Proof. intros H s. apply H. Qed.
Lemma keeps_bind {A B C} (f : state -> C) (m : act A) (k : A -> act B) :
  keeps f m -> (forall a, keeps f (k a)) -> keeps f (abind m k).
Proof.
  intros Hm Hk s. rewrite run_bind. specialize (Hm s). destruct (run m s) as [s1 [a|e]]; cbn in *; [|exact Hm].
  rewrite Hk. exact Hm.
Qed.
Ltac keeps_step :=
  first [ apply keeps_lift | apply keeps_ret | apply keeps_log | apply keeps_read
        | apply keeps_mod; reflexivity
        | apply keeps_bind; [|intros ?]
        | match goal with
          | |- keeps _ (if ?b then _ else _) => destruct b
          | |- keeps _ (match ?x with _ => _ end) => destruct x
          end ].
Lemma keeps_run {A B} (f : state -> B) (m : act A) s s' r : keeps f m -> run m s = (s', r) -> f s' = f s.
Proof. intros K H. specialize (K s). now rewrite H in K. Qed.

(** computations that neither read nor write the stored average *)
Definition blind {A} (m : act A) : Prop :=
  forall a s, run m (set_average a s) = (set_average a (fst (run m s)), snd (run m s)).
Lemma blind_bind {A B} (m : act A) (k : A -> act B) : blind m -> (forall x, blind (k x)) -> blind (abind m k).
Proof.
  intros Hm Hk a s. rewrite !run_bind, Hm. destruct (run m s) as [s1 [v|e]]; cbn; [apply Hk|reflexivity].
Qed.
Lemma blind_read {A} (f : state -> A) : (forall a s, f (set_average a s) = f s) -> blind (aread f).
Proof. intros H a s. unfold aread, run. cbn. now rewrite H. Qed.
Ltac blind_step :=
  first [ apply blind_bind; [|intros ?]
        | apply blind_read; reflexivity
        | match goal with
          | |- blind (if ?b then _ else _) => destruct b
          | |- blind (match ?x with _ => _ end) => destruct x
          end
        | intros ? ?; reflexivity ].

Ltac inv_run H :=
  let a := fresh "v" in let s1 := fresh "st" in let E := fresh "E" in
  apply run_bind_ok in H; destruct H as (a & s1 & E & H).
(** inversion of a lifted result: the state does not change *)
Ltac inv_lift E :=
  rewrite run_lift in E; let E1 := fresh in let E2 := fresh in
  injection E as E1 E2; subst.

Tactic Notation "step" hyp(H) "as" ident(v) ident(st) ident(E) :=
  apply run_bind_ok in H; destruct H as (v & st & E & H).
Tactic Notation "lifted" hyp(H) "as" ident(v) ident(E) :=
  let st := fresh "st" in
  apply run_bind_ok in H; destruct H as (v & st & E & H);
  rewrite run_lift in E; injection E as <- E.
Tactic Notation "modified" hyp(H) :=
  let v := fresh "v" in let st := fresh "st" in let E := fresh "E" in
  apply run_bind_ok in H; destruct H as (v & st & E & H);
  unfold amod, run in E; cbn in E; injection E as <- <-.
(** an [if] that returns tt, raises or only logs *)
Tactic Notation "checked" hyp(H) "as" ident(E) :=
  let v := fresh "v" in let st := fresh "st" in
  apply run_bind_ok in H; destruct H as (v & st & E & H);
  let b := match type of E with run (if ?b then _ else _) _ = _ => b end in
  let X := fresh "X" in
  destruct b eqn:X;
  [ first [rewrite run_lift in E; discriminate E | rewrite run_log in E; injection E as <- _]
  | cbn in E; injection E as <- _ ]; rename X into E.

(** ** lists *)
Lemma keeps_exactly_filter {A} (P : A -> Prop) (p : A -> bool) l :
  (forall x, p x = true <-> P x) -> keeps_exactly P l (filter p l).
Proof.
  intros H. induction l as [|x r IH]; cbn; [constructor|].
  destruct (p x) eqn:E; constructor; auto; [now apply H|]. intros N. apply H in N. congruence.
Qed.
Lemma keeps_exactly_fun {A} (P : A -> Prop) l o1 : keeps_exactly P l o1 -> forall o2, keeps_exactly P l o2 -> o1 = o2.
Proof.
  induction 1 as [|x l out Hx H IH|x l out Hx H IH]; intros o2 H2; inversion H2; subst; auto; try contradiction.
  f_equal. auto.
Qed.
Lemma keeps_exactly_in {A} (P : A -> Prop) l o : keeps_exactly P l o -> forall x, In x o <-> In x l /\ P x.
Proof.
  induction 1 as [|x l out Hx H IH|x l out Hx H IH]; intros y; cbn.
  - tauto.
  - rewrite IH. split; [intros [<-|[? ?]]; auto|]. intros [[<-|?] ?]; auto.
  - rewrite IH. split; [intros [? ?]; auto|]. intros [[<-|?] ?]; [contradiction|auto].
Qed.
Lemma gather_samples t loc ts : gather t loc = Ok ts <-> samples_at t loc ts.
Proof.
  revert ts. induction loc as [|i r IH]; intros ts; cbn.
  - split; [intros H; inv_ok H; constructor|]. intros H. inversion H. reflexivity.
  - split.
    + intros H. unfold bind in H. destruct (get t i) as [a|] eqn:E; [|discriminate].
      destruct (gather t r) as [b|] eqn:G; [|discriminate]. inv_ok H. constructor; [now apply get_ok|]. now apply IH.
    + intros H. inversion H as [|? x ? ts' H1 H2]; subst. apply get_ok in H1. apply IH in H2. now rewrite H1, H2.
Qed.
Lemma first_is_get {A} (l : list A) a : get l 0 = Ok a <-> first_is l a.
Proof.
  split.
  - intros H. apply get_ok in H. destruct l as [|x r]; [discriminate|]. cbn in H. apply Some_inj in H. subst. now exists r.
  - intros [r ->]. reflexivity.
Qed.
Lemma last_is_last {A} (l : list A) a : last_of l = Ok a <-> last_is l a.
Proof.
  split; [apply last_of_inv|]. intros [r ->]. apply last_of_app.
Qed.
Lemma window_intro tp ta pf pl af al :
  get tp 0 = Ok pf -> last_of tp = Ok pl -> get ta 0 = Ok af -> last_of ta = Ok al ->
  common_window tp ta (Qmaxb pf af) (Qminb pl al).
Proof.
  intros H1 H2 H3 H4. exists pf, pl, af, al. apply first_is_get in H1, H3. apply last_is_last in H2, H4.
  destruct (Qmaxb_spec pf af) as (A1 & A2 & A3). destruct (Qminb_spec pl al) as (B1 & B2 & B3).
  repeat split; auto.
Qed.
Lemma inside_iff lo hi t : Qle_bool lo t && Qle_bool t hi = true <-> within lo hi t.
Proof. rewrite andb_true_iff, !Qle_bool_iff. reflexivity. Qed.
Lemma limits_ok vals lo hi : check_input_limits vals lo hi = Ok tt <-> forall v, In v vals -> within lo hi v.
Proof.
  unfold check_input_limits. destruct (existsb (fun v => Qlt_bool hi v) vals) eqn:E1.
  - split; [discriminate|]. intros H. apply existsb_exists in E1. destruct E1 as (v & I & L).
    apply Qlt_bool_iff in L. apply H in I. unfold within in I. lra.
  - destruct (existsb (fun v => Qlt_bool v lo) vals) eqn:E2.
    + split; [discriminate|]. intros H. apply existsb_exists in E2. destruct E2 as (v & I & L).
      apply Qlt_bool_iff in L. apply H in I. unfold within in I. lra.
    + split; [|reflexivity]. intros _ v I. split.
      * destruct (Qlt_bool v lo) eqn:X; [|now apply Qlt_bool_false in X].
        exfalso. rewrite <- not_true_iff_false in E2. apply E2. apply existsb_exists. eauto.
      * destruct (Qlt_bool hi v) eqn:X; [|now apply Qlt_bool_false in X].
        exfalso. rewrite <- not_true_iff_false in E1. apply E1. apply existsb_exists. eauto.
Qed.
Lemma eval_curve_spec f ts vs : eval_curve f ts = Ok vs <-> Forall2 (fun t v => f t = Ok v) ts vs.
Proof.
  revert vs. induction ts as [|t r IH]; intros vs; cbn.
  - split; [intros H; inv_ok H; constructor|]. intros H. inversion H. reflexivity.
  - split.
    + intros H. unfold bind in H. destruct (f t) as [a|] eqn:E; [|discriminate].
      destruct (eval_curve f r) as [b|] eqn:G; [|discriminate]. inv_ok H. constructor; auto. now apply IH.
    + intros H. inversion H as [|? x ? ts' H1 H2]; subst. apply IH in H2. now rewrite H1, H2.
Qed.

Section Measure.
  Context {V : Type} (ecc_of : Q -> Q -> V) (vzero : V) (vneg : V -> bool) (find_extrema : bool -> res (list nat)).
  Context (sv : list Q -> list Q -> nat -> Q -> Q) (pv : list Q -> list Q -> Q -> Q).
  Context (rfit : list Q -> list Q -> Z * Z -> res curve) (slope : list Q -> list V -> list bool).
  Notation measure := (measure_ecc ecc_of vzero vneg find_extrema sv pv rfit slope).
  Notation from_extrema := (measure_from_extrema ecc_of vneg sv pv rfit slope).

  (** What extrema_curve leaves alone: everything but the degrees. *)
  Lemma keeps_rational {B} (f : state -> B) : (forall d s, f (set_degrees d s) = f s) ->
    forall l c np na x y, keeps f (rational_curve sv pv rfit l c np na x y).
  Proof. intros H l c np na x y. unfold rational_curve. repeat first [apply keeps_mod; now auto | keeps_step]. Qed.
  Lemma keeps_curve {B} (f : state -> B) : (forall d s, f (set_degrees d s) = f s) ->
    forall l c np na tc loc, keeps f (extrema_curve sv pv rfit l c np na tc loc).
  Proof. intros H l c np na tc loc. unfold extrema_curve. repeat first [apply keeps_rational; exact H | keeps_step]. Qed.
  Lemma keeps_get_average {B} (f : state -> B) c m : keeps f (get_omega_gw_average sv pv c m).
  Proof. unfold get_omega_gw_average, run_averaging. repeat keeps_step. Qed.
  Lemma keeps_bounds {B} (f : state -> B) : (forall a s, f (set_average a s) = f s) ->
    forall l c m, keeps f (get_fref_bounds sv pv l c m).
  Proof. intros H l c m. unfold get_fref_bounds. repeat first [apply keeps_get_average | apply keeps_mod; now auto | keeps_step]. Qed.
  Lemma keeps_fref_out {B} (f : state -> B) : (forall a s, f (set_average a s) = f s) ->
    forall l c fr m, keeps f (get_fref_out sv pv l c fr m).
  Proof. intros H l c fr m. unfold get_fref_out. cbv zeta. repeat first [apply keeps_bounds; exact H | keeps_step]. Qed.
  Lemma keeps_tref {B} (f : state -> B) : (forall a s, f (set_average a s) = f s) ->
    forall l c fr, keeps f (tref_fref_from_fref sv pv l c fr).
  Proof.
    intros H l c fr. unfold tref_fref_from_fref. cbv zeta.
    repeat first [apply keeps_fref_out; exact H | apply keeps_get_average | apply keeps_mod; now auto | keeps_step].
  Qed.
  Lemma keeps_ecc_check {B} (f : state -> B) : (forall a s, f (set_decc a s) = f s) ->
    forall l c fp fa lo hi tc, keeps f (check_ecc_monotone ecc_of slope l c fp fa lo hi tc).
  Proof. intros H l c fp fa lo hi tc. unfold check_ecc_monotone. cbv zeta. repeat first [apply keeps_mod; now auto | keeps_step]. Qed.

  (** ** reference frequencies *)
  Definition min_max_over_2pi (w : list Q) (lo hi : Q) : Prop :=
    exists wmin wmax, In wmin w /\ In wmax w /\ (forall x, In x w -> (wmin <= x <= wmax)%Q) /\
      lo = (wmin / 2 / np_pi)%Q /\ hi = (wmax / 2 / np_pi)%Q.
  Lemma bounds_inv l c m s s' lo hi : run (get_fref_bounds sv pv l c m) s = (s', Ok (lo, hi)) ->
    exists tv, s' = set_average (Some tv) s /\ min_max_over_2pi (snd tv) lo hi /\
      (s_average s = Some tv \/ (s_average s = None /\ run (get_omega_gw_average sv pv c m) s = (s, Ok tv))).
  Proof.
    intros H. unfold get_fref_bounds in H. inv_run H.
    assert (st = s) by (destruct (c_use_only c); [rewrite run_log in E|]; now injection E). subst st. clear E v.
    inv_run H. unfold aread, run in E. cbn in E. injection E as <- <-.
    inv_run H. inv_run H. inv_lift E0. inv_run H. inv_lift E0.
    cbn in H. injection H as <- <- <-.
    apply qmin_ok in H1. apply qmax_ok in H2. destruct H1 as [I1 M1]. destruct H2 as [I2 M2].
    assert (MM : min_max_over_2pi v (v0 / 2 / np_pi) (v1 / 2 / np_pi)) by (exists v0, v1; repeat split; auto).
    destruct (s_average s) as [tv|] eqn:A.
    - cbn in E. injection E as <- <-. exists tv. split; [destruct s; cbn in *; now subst|]. auto.
    - inv_run E. assert (K : st0 = s).
      { assert (K := keeps_run (fun x => x) _ _ _ _ (keeps_get_average (fun x => x) c m) E0). exact K. }
      subst st0. inv_run E. unfold amod, run in E1. cbn in E1. injection E1 as <- <-.
      cbn in E. injection E as <- <-. exists v2. auto.
  Qed.
  Lemma fref_out_inv l c fr m s s' fo : run (get_fref_out sv pv l c fr m) s = (s', Ok fo) ->
    exists lo hi, run (get_fref_bounds sv pv l c (Some m)) s = (s', Ok (lo, hi)) /\
      keeps_exactly (fun f => lo <= f /\ f < hi)%Q fr fo /\ fo <> [].
  Proof.
    intros H. unfold get_fref_out in H. inv_run H. destruct v as [lo hi]. cbn [fst snd] in H.
    assert (K : keeps_exactly (fun f => lo <= f /\ f < hi)%Q fr (filter (fun f => Qle_bool lo f && Qlt_bool f hi) fr)).
    { apply keeps_exactly_filter. intros x. rewrite andb_true_iff, Qle_bool_iff, Qlt_bool_iff. reflexivity. }
    exists lo, hi. destruct (filter _ fr) as [|x r] eqn:F.
    - inv_run H. rewrite run_lift in H. discriminate H.
    - cbn in H. injection H as <- <-. split; [exact E|]. split; [exact K|discriminate].
  Qed.
  Lemma check_monotonicity_ok w : check_monotonicity w = Ok tt <-> increasing w.
  Proof.
    unfold check_monotonicity. rewrite <- all_increasing_iff. unfold all_increasing.
    destruct (existsb _ _) eqn:E.
    - split; [discriminate|]. intros H. rewrite forallb_forall in H. apply existsb_exists in E. destruct E as (d & I & L).
      apply H in I. apply Qlt_bool_iff in I. apply Qle_bool_iff in L. lra.
    - split; [|reflexivity]. intros _. apply forallb_forall. intros d I. apply Qlt_bool_iff.
      destruct (Qle_bool d 0) eqn:L; [|now apply Qle_bool_false in L].
      exfalso. rewrite <- not_true_iff_false in E. apply E. apply existsb_exists. eauto.
  Qed.
  Lemma average_blind c m : blind (get_omega_gw_average sv pv c m).
  Proof.
    unfold get_omega_gw_average, run_averaging. cbv zeta. repeat blind_step.
  Qed.
  Lemma average_indep c m s a : run (get_omega_gw_average sv pv c m) (set_average a s) =
    (set_average a s, snd (run (get_omega_gw_average sv pv c m) s)).
  Proof.
    rewrite average_blind. f_equal. f_equal. apply (keeps_get_average (fun x => x) c m s).
  Qed.
  (** The conversion from reference frequencies to times. [tv0] is the average that gives the bounds:
      the stored one if there is one; [tv] is the average that is inverted. *)
  Lemma tref_inv l c fr s s' tr fo : run (tref_fref_from_fref sv pv l c fr) s = (s', Ok (tr, fo)) ->
    In (c_average c) averaging_methods /\
    exists tv0 tv lo hi,
      (s_average s = Some tv0 \/ (s_average s = None /\ tv0 = tv)) /\
      min_max_over_2pi (snd tv0) lo hi /\
      keeps_exactly (fun f => lo <= f /\ f < hi)%Q fr fo /\ fo <> [] /\
      run (get_omega_gw_average sv pv c (Some (c_average c))) s = (s, Ok tv) /\
      increasing (snd tv) /\
      interpolate sv pv fo (map (fun w => w / (2 * np_pi))%Q (snd tv)) (fst tv) false "spline" (Some (c_general c)) = Ok tr /\
      s' = set_average (Some tv) s.
  Proof.
    intros H. unfold tref_fref_from_fref in H. destruct (existsb _ _) eqn:EX; [|discriminate H].
    split.
    { apply existsb_exists in EX. destruct EX as (x & I & L). apply String.eqb_eq in L. now subst. }
    inv_run H. apply fref_out_inv in E. destruct E as (lo & hi & B & K & N).
    apply bounds_inv in B. destruct B as (tv0 & -> & MM & A).
    inv_run H. rewrite average_indep in E. injection E as <- E.
    inv_run H. unfold amod, run in E0. cbn in E0. injection E0 as <- <-.
    inv_run H. inv_lift E0. destruct v1. apply check_monotonicity_ok in H1.
    inv_run H. inv_lift E0.
    inv_run H.
    assert (st = set_average (Some v0) (set_average (Some tv0) s)).
    { match type of E0 with run (if ?b then _ else _) _ = _ => destruct b end;
      [rewrite run_log in E0|]; injection E0; auto. } subst st. clear E0.
    cbn in H. injection H as <- <- <-.
    assert (G : run (get_omega_gw_average sv pv c (Some (c_average c))) s = (s, Ok v0)).
    { rewrite <- E. rewrite (surjective_pairing (run _ s)) at 1. f_equal.
      apply (keeps_get_average (fun x => x) c (Some (c_average c)) s). }
    exists tv0, v0, lo, hi. split; [|auto 10].
    destruct A as [A|[A1 A2]]; [now left|right]. split; [exact A1|].
    rewrite A2 in G. now injection G.
  Qed.

  (** ** the whole measurement from chosen extrema *)
  Lemma map2_forall2 {A B C} (f : A -> B -> C) la lb {T} (P : T -> A -> Prop) (R : T -> B -> Prop) lt :
    Forall2 P lt la -> Forall2 R lt lb -> Forall2 (fun t v => exists a b, P t a /\ R t b /\ v = f a b) lt (map2 f la lb).
  Proof.
    intros H. revert lb. induction H as [|t a lt la Hp H IH]; intros lb H2; inversion H2; subst; cbn; constructor; eauto.
  Qed.
  Lemma from_inv l c p a s s' r : run (from_extrema l c p a) s = (s', Ok r) ->
    exists tp ta lo hi fp fa tref fref tout ecc,
      samples_at (c_t c) p tp /\ samples_at (c_t c) a ta /\ common_window tp ta lo hi /\
      s_window s' = Some (lo, hi) /\ s_curves s' = (Some fp, Some fa) /\
      s_peri s' = s_peri s /\ s_apo s' = s_apo s /\ s_zero s' = s_zero s /\
      (match c_ref c with
       | TimeRef tr => tref = tr /\ s_average s' = s_average s
       | FreqRef fr => length fref = length tout /\
           exists s1 s2, run (tref_fref_from_fref sv pv l c fr) s1 = (s2, Ok (tref, fref)) /\
             s_average s1 = s_average s /\ s_average s2 = s_average s' /\
             s_peri s1 = s_peri s /\ s_apo s1 = s_apo s /\ s_window s1 = Some (lo, hi) /\
             s_curves s1 = (Some fp, Some fa)
       end) /\
      keeps_exactly (within lo hi) tref tout /\ tout <> [] /\
      Forall2 (fun t e => exists wp wa, fp t = Ok wp /\ fa t = Ok wa /\ e = ecc_of wp wa) tout ecc /\
      make_result c ecc (map (mean_anomaly_at tp) tout) (match c_ref c with TimeRef _ => tout | FreqRef _ => fref end) = Ok r /\
      (exists s1 s2 np na tc, run (extrema_curve sv pv rfit l c np na tc p) s1 = (s2, Ok fp)) /\
      (exists s1 s2 np na tc, run (extrema_curve sv pv rfit l c np na tc a) s1 = (s2, Ok fa)).
  Proof.
    intros H. unfold measure_from_extrema in H. cbv zeta in H.
    lifted H as tp Gp. lifted H as ta Ga. lifted H as pl Lp. lifted H as al La. lifted H as pf Fp. lifted H as af Fa.
    assert (W := window_intro tp ta pf pl af al Fp Lp Fa La).
    set (lo := Qmaxb pf af) in *. set (hi := Qminb pl al) in *.
    modified H. step H as fp sA Efp.
    step H as cs sA' E. unfold aread, run in E. cbn in E. injection E as <- <-.
    modified H. step H as fa sB Efa. modified H.
    assert (KA : forall B (f : state -> B), (forall d s, f (set_degrees d s) = f s) -> f sA = f (set_window (lo, hi) s)).
    { intros B f Hf. eapply keeps_run; [|exact Efp]. now apply keeps_curve. }
    assert (KB : forall B (f : state -> B), (forall d s, f (set_degrees d s) = f s) ->
              f sB = f (set_curves (Some fp, snd (s_curves sA)) sA)).
    { intros B f Hf. eapply keeps_run; [|exact Efa]. now apply keeps_curve. }
    step H as tf st0 EC. destruct tf as [tref fref]. cbn [fst snd] in H.
    set (tout := filter (fun t => Qle_bool lo t && Qle_bool t hi) tref) in *.
    assert (K : keeps_exactly (within lo hi) tref tout) by (apply keeps_exactly_filter; intros; apply inside_iff).
    step H as u sD EL.
    assert (sD = st0).
    { destruct (c_ref c); [now injection EL|]. destruct (negb _); [rewrite run_lift in EL; discriminate|now injection EL]. }
    subst sD.
    step H as u1 sD E.
    assert (ND : sD = st0 /\ tout <> []).
    { destruct tout as [|x y] eqn:ET.
      - step E as u2 sF E2. rewrite run_lift in E. discriminate.
      - cbn in E. injection E as <- <-. split; [reflexivity|discriminate]. }
    destruct ND as [-> NE]. clear E.
    lifted H as r0 R0. lifted H as rn Rn. checked H as _X.
    lifted H as ecc EE. lifted H as mean EM.
    step H as u3 sE EcE.
    assert (KE : forall B (f : state -> B), (forall d s, f (set_decc d s) = f s) -> f sE = f st0).
    { intros B f Hf. eapply keeps_run; [|exact EcE]. now apply keeps_ecc_check. }
    assert (HR : s' = sE /\ make_result c ecc mean (match c_ref c with TimeRef _ => tout | FreqRef _ => fref end) = Ok r).
    { checked H as _Y; rewrite run_lift in H; injection H as <- HR; auto. }
    clear H. destruct HR as [-> HR].
    (* eccentricity and mean anomaly *)
    unfold compute_eccentricity, bind in EE.
    destruct (check_input_limits tout lo hi) as [[]|] eqn:CL; [|discriminate].
    destruct (eval_curve fp tout) as [vp|] eqn:Vp; [|discriminate].
    destruct (eval_curve fa tout) as [va|] eqn:Va; [|discriminate]. apply Ok_inj in EE. subst ecc.
    unfold compute_mean_anomaly, bind in EM. rewrite CL in EM. apply Ok_inj in EM. subst mean.
    apply eval_curve_spec in Vp, Va.
    exists tp, ta, lo, hi, fp, fa, tref, fref, tout, (map2 ecc_of vp va).
    split; [now apply gather_samples|]. split; [now apply gather_samples|]. split; [exact W|].
    (* what the conversion leaves alone *)
    assert (KC : forall B (f : state -> B), (forall a s, f (set_average a s) = f s) -> f st0 = f (set_curves (Some fp, Some fa) sB)).
    { intros B f Hf. destruct (c_ref c).
      - cbn in EC. injection EC as <- <-. reflexivity.
      - eapply keeps_run; [|exact EC]. now apply keeps_tref. }
    split. { rewrite (KE _ s_window), (KC _ s_window) by reflexivity. cbn. rewrite (KB _ s_window) by reflexivity. cbn.
             now rewrite (KA _ s_window). }
    split. { rewrite (KE _ s_curves), (KC _ s_curves) by reflexivity. reflexivity. }
    split. { rewrite (KE _ s_peri), (KC _ s_peri) by reflexivity. cbn. rewrite (KB _ s_peri) by reflexivity. cbn.
             now rewrite (KA _ s_peri). }
    split. { rewrite (KE _ s_apo), (KC _ s_apo) by reflexivity. cbn. rewrite (KB _ s_apo) by reflexivity. cbn.
             now rewrite (KA _ s_apo). }
    split. { rewrite (KE _ s_zero), (KC _ s_zero) by reflexivity. cbn. rewrite (KB _ s_zero) by reflexivity. cbn.
             now rewrite (KA _ s_zero). }
    split.
    { assert (AV : s_average (set_curves (Some fp, Some fa) sB) = s_average s).
      { cbn. rewrite (KB _ s_average) by reflexivity. cbn. now rewrite (KA _ s_average). }
      destruct (c_ref c) as [tr|fr].
      - cbn in EC. injection EC as <- <- <-. split; [reflexivity|].
        rewrite (KE _ s_average) by reflexivity. exact AV.
      - split.
        + destruct (negb _) eqn:NL; [rewrite run_lift in EL; discriminate|].
          apply negb_false_iff, Nat.eqb_eq in NL. exact NL.
        + exists (set_curves (Some fp, Some fa) sB), st0. split; [exact EC|]. split; [exact AV|].
          split. { symmetry. now rewrite (KE _ s_average). }
          split. { cbn. rewrite (KB _ s_peri) by reflexivity. cbn. now rewrite (KA _ s_peri). }
          split. { cbn. rewrite (KB _ s_apo) by reflexivity. cbn. now rewrite (KA _ s_apo). }
          split; [|reflexivity]. cbn. rewrite (KB _ s_window) by reflexivity. cbn. now rewrite (KA _ s_window). }
    split; [exact K|]. split; [exact NE|].
    split; [now apply (map2_forall2 ecc_of vp va (fun t v => fp t = Ok v) (fun t v => fa t = Ok v))|].
    split; [exact HR|].
    split; [do 5 eexists; exact Efp|do 5 eexists; exact Efa].
  Qed.
End Measure.
