From Coq Require Import Lia Lqa Qfield.
From Verif Require Import Base BaseLemmas UtilsModel UtilsSpec UtilsLemmas ExtremaModel RationalModel MeasureModel ScaleSpec ScaleLemmas.
Open Scope nat_scope.

(** ** Logged computations *)
Definition LG {A A'} (R : A -> A' -> Prop) (x : lg A) (x' : lg A') : Prop := fst x' = fst x /\ same_res R (snd x) (snd x').
Lemma lgb {A A' B B'} (R : A -> A' -> Prop) (S : B -> B' -> Prop) (m : lg A) (m' : lg A') (f : A -> lg B) (f' : A' -> lg B') :
  LG R m m' -> (forall x x', R x x' -> LG S (f x) (f' x')) -> LG S (lbind m f) (lbind m' f').
Proof.
  destruct m as [w r], m' as [w' r']. intros [H1 H2] K. cbn in H1, H2. subst w'. unfold lbind. cbn [fst snd].
  destruct H2 as [x x' H|e e' H].
  - destruct (K x x' H) as [K1 K2]. split; cbn; [rewrite K1; reflexivity|exact K2].
  - split; cbn; [reflexivity|constructor; exact H].
Qed.
Lemma lg_lift {A A'} (R : A -> A' -> Prop) m m' : same_res R m m' -> LG R (lift m) (lift m').
Proof. intros H. split; [reflexivity|exact H]. Qed.
Lemma lg_ret {A A'} (R : A -> A' -> Prop) x x' : R x x' -> LG R (lret x) (lret x').
Proof. intros H. split; [reflexivity|constructor; exact H]. Qed.
Lemma res_refl {A} (m : res A) : same_res eq m m.
Proof. destruct m; constructor; [reflexivity|apply exn_refl]. Qed.
Lemma lg_refl {A} (m : lg A) : LG eq m m.
Proof. split; [reflexivity|apply res_refl]. Qed.

Lemma map_const_len {A B} (x : B) : forall l l' : list A, length l' = length l -> map (fun _ => x) l' = map (fun _ => x) l.
Proof. induction l as [|u l IH]; intros [|u' l'] H; cbn in *; try discriminate; [reflexivity|]. f_equal. apply IH. congruence. Qed.

(** The clean-up of extrema looks at differences of phases only. *)
Lemma f2_whereI {A A'} (R : A -> A' -> Prop) p p' l l' : (forall x x', R x x' -> p' x' = p x) -> Forall2 R l l' -> where_idx p' l' = where_idx p l.
Proof.
  intros Hp H. unfold where_idx. generalize 0%nat. induction H as [|x x' l l' Hx H IH]; intros i; cbn; [reflexivity|].
  rewrite (Hp x x' Hx), IH. reflexivity.
Qed.
Definition R1 (x x' : Q * Q) : Prop := T 1 0 (fst x) (fst x') /\ T 1 0 (snd x) (snd x').
Lemma pairs_R1 d d' : LT 1 0 d d' -> Forall2 R1 (combine (tl d) d) (combine (tl d') d').
Proof.
  intros H. assert (G : LT 1 0 (tl d) (tl d')) by (apply f2_tl; exact H). revert G. generalize (tl d), (tl d'). intros u u' G. revert d d' H.
  induction G as [|x x' u u' Hx G IH]; intros d d' H; cbn; [constructor|]. destruct H as [|y y' d d' Hy H]; constructor; [split; assumption|apply IH; exact H].
Qed.
Lemma R1_eq x x' : R1 x x' -> (fst x' == fst x /\ snd x' == snd x)%Q.
Proof. unfold R1, same_time. intros [-> ->]. split; ring. Qed.
Lemma R1_gt c x x' : R1 x x' -> ratio_gt (fst x') (snd x') c = ratio_gt (fst x) (snd x) c.
Proof.
  intros H. apply R1_eq in H. destruct H as [H1 H2]. unfold ratio_gt. rewrite H2. destruct (Qeq_bool (snd x) 0); apply qlt_comp; try reflexivity; rewrite ?H1, ?H2; reflexivity.
Qed.
Lemma R1_lt c x x' : R1 x x' -> ratio_lt (fst x') (snd x') c = ratio_lt (fst x) (snd x) c.
Proof.
  intros H. apply R1_eq in H. destruct H as [H1 H2]. unfold ratio_lt. rewrite H2. destruct (Qeq_bool (snd x) 0); apply qlt_comp; try reflexivity; rewrite ?H1, ?H2; reflexivity.
Qed.
Lemma ratios_gt c d d' : LT 1 0 d d' -> existsb (fun nd => ratio_gt (fst nd) (snd nd) c) (combine (tl d') d') = existsb (fun nd => ratio_gt (fst nd) (snd nd) c) (combine (tl d) d).
Proof. intros H. eapply f2_existsb; [|apply pairs_R1; exact H]. intros x x' Hx. apply R1_gt. exact Hx. Qed.
Lemma jumps_rel k ph ph' level loc r : LT 1 k ph ph' -> LG eq (drop_extrema_if_extrema_jumps level ph loc r) (drop_extrema_if_extrema_jumps level ph' loc r).
Proof.
  intros H. unfold drop_extrema_if_extrema_jumps. eapply lgb; [apply lg_lift; apply r_gather; exact H|]. intros x x' Hx. cbv zeta. unfold phase_ratios.
  pose proof (pairs_R1 _ _ (t_qdiff _ _ _ _ Hx)) as P. rewrite (f2_length _ _ _ P).
  rewrite (f2_whereI R1 (fun nd => ratio_gt (fst nd) (snd nd) r) (fun nd => ratio_gt (fst nd) (snd nd) r) _ _ (R1_gt r) P).
  rewrite (f2_whereI R1 (fun nd => ratio_lt (fst nd) (snd nd) (1 / r)) (fun nd => ratio_lt (fst nd) (snd nd) (1 / r)) _ _ (R1_lt (1 / r)) P).
  apply lg_refl.
Qed.
Lemma close_rel k ph ph' level loc m : LT 1 k ph ph' -> LG eq (drop_extrema_if_too_close level ph loc m) (drop_extrema_if_too_close level ph' loc m).
Proof.
  intros H. unfold drop_extrema_if_too_close. eapply lgb; [apply lg_lift; apply r_gather; exact H|]. intros x x' Hx. cbv zeta.
  pose proof (t_qdiff _ _ _ _ Hx) as P. rewrite (f2_length _ _ _ P).
  rewrite (f2_whereI (T 1 0) (fun x => Qlt_bool x m) (fun x => Qlt_bool x m) _ _ (fun x x' Hx => T1_lt x x' m m Hx (T1_refl m)) P). apply lg_refl.
Qed.

Section Rel.
  Variables a b : Q.
  Hypothesis Ha : (0 < a)%Q.
  Let Ha0 : ~ (a == 0)%Q.
  Proof. lra. Qed.
  Let Hw := inv_pos a Ha.
  Notation W := (same_freq a).
  Notation LW := (same_freqs a).
  Notation TT := (same_time a b).
  Notation LTT := (same_times a b).
  Notation CR := (same_curve a b).

  Record SR (s s' : state) : Prop := {
    st_degrees : s_degrees s' = s_degrees s; st_decc : s_decc s' = s_decc s; st_peri : s_peri s' = s_peri s;
    st_apo : s_apo s' = s_apo s; st_zero : s_zero s' = s_zero s;
    st_average : same_option (fun x x' => LTT (fst x) (fst x') /\ LW (snd x) (snd x')) (s_average s) (s_average s');
    st_window : same_option (fun x x' => TT (fst x) (fst x') /\ TT (snd x) (snd x')) (s_window s) (s_window s');
    st_curves : same_option CR (fst (s_curves s)) (fst (s_curves s')) /\ same_option CR (snd (s_curves s)) (snd (s_curves s')) }.
  Definition CS (x x' : option curve * option curve) : Prop := same_option CR (fst x) (fst x') /\ same_option CR (snd x) (snd x').
  Definition OW := same_option (fun x x' : Q * Q => TT (fst x) (fst x') /\ TT (snd x) (snd x')).
  Definition OA := same_option (fun x x' : list Q * list Q => LTT (fst x) (fst x') /\ LW (snd x) (snd x')).
  Definition AR {A A'} (R : A -> A' -> Prop) (m : act A) (m' : act A') : Prop := forall s s', SR s s' ->
    fst (m' s') = fst (m s) /\ SR (fst (snd (m s))) (fst (snd (m' s'))) /\ same_res R (snd (snd (m s))) (snd (snd (m' s'))).

  Lemma fresh_SR d : SR (fresh d) (fresh d).
  Proof. constructor; try reflexivity; cbn; repeat constructor. Qed.
  Lemma arb {A A' B B'} (R : A -> A' -> Prop) (S : B -> B' -> Prop) (m : act A) (m' : act A') (f : A -> act B) (f' : A' -> act B') :
    AR R m m' -> (forall x x', R x x' -> AR S (f x) (f' x')) -> AR S (abind m f) (abind m' f').
  Proof.
    intros H K s s' Hs. specialize (H s s' Hs). unfold abind. destruct (m s) as [w [s1 r]], (m' s') as [w' [s1' r']].
    cbn [fst snd] in H. destruct H as (-> & H2 & H3). destruct H3 as [x x' H|e e' H].
    - specialize (K x x' H s1 s1' H2). destruct (f x s1) as [v y], (f' x' s1') as [v' y']. cbn [fst snd] in *.
      destruct K as (-> & K2 & K3). auto.
    - cbn. split; [reflexivity|]. split; [exact H2|constructor; exact H].
  Qed.
  Lemma ar_ret {A A'} (R : A -> A' -> Prop) x x' : R x x' -> AR R (aret x) (aret x').
  Proof. intros H s s' Hs. cbn. split; [reflexivity|]. split; [exact Hs|constructor; exact H]. Qed.
  Lemma ar_lift {A A'} (R : A -> A' -> Prop) m m' : same_res R m m' -> AR R (alift m) (alift m').
  Proof. intros H s s' Hs. cbn. auto. Qed.
  Lemma ar_log {A A'} (R : A -> A' -> Prop) m m' : LG R m m' -> AR R (alog m) (alog m').
  Proof. intros [H1 H2] s s' Hs. cbn. auto. Qed.
  Lemma ar_read {A A'} (R : A -> A' -> Prop) f f' : (forall s s', SR s s' -> R (f s) (f' s')) -> AR R (aread f) (aread f').
  Proof. intros H s s' Hs. cbn. split; [reflexivity|]. split; [exact Hs|constructor; apply H; exact Hs]. Qed.
  Lemma ar_mod f f' : (forall s s', SR s s' -> SR (f s) (f' s')) -> AR eq (amod f) (amod f').
  Proof. intros H s s' Hs. cbn. split; [reflexivity|]. split; [apply H; exact Hs|constructor; reflexivity]. Qed.
  Lemma r_attr {A A'} (R : A -> A' -> Prop) o o' : same_option R o o' -> same_res R (attr o) (attr o').
  Proof. intros []; constructor; [apply exn_refl|assumption]. Qed.
  Lemma o_refl {A} (o : option A) : same_option eq o o.
  Proof. destruct o; constructor; reflexivity. Qed.
  Ltac aerr := apply ar_lift; rerr.

  Lemma r_eval_curve f f' ts ts' : CR f f' -> LTT ts ts' -> same_res LW (eval_curve f ts) (eval_curve f' ts').
  Proof.
    intros H. induction 1 as [|t t' ts ts' Ht Hts IH]; cbn; [constructor; constructor|].
    eapply rb; [apply H; exact Ht|]. intros u u' Hu. eapply rb; [exact IH|]. intros v v' Hv. constructor. constructor; assumption.
  Qed.
  Lemma lw l l' : LW l l' <-> LT (1 / a) 0 l l'.
  Proof. apply freqs_T. exact Ha0. Qed.
  Lemma wt w w' : W w w' <-> T (1 / a) 0 w w'.
  Proof. apply freq_T. exact Ha0. Qed.
  Lemma r_nonmono x x' y y' tol : LTT x x' -> LW y y' ->
    same_res eq (first_derivative_not_monotonic x y tol) (first_derivative_not_monotonic x' y' tol).
  Proof. intros Hx Hy. apply lw in Hy. exact (r_not_monotonic a b (1 / a) 0 x x' y y' tol Ha Hw Hx Hy). Qed.
  Lemma inside_eq lo hi lo' hi' : TT lo lo' -> TT hi hi' -> forall x x', TT x x' ->
    Qle_bool lo' x' && Qle_bool x' hi' = Qle_bool lo x && Qle_bool x hi.
  Proof. intros Hl Hh x x' Hx. rewrite (T_le a b lo x lo' x' Ha Hl Hx), (T_le a b x hi x' hi' Ha Hx Hh). reflexivity. Qed.

  (** ** The adaptive choice of the degrees *)
  Section Adaptive.
    Context {F F' : Type} (R : F -> F' -> Prop).
    Variables (ff : Z * Z -> res F) (ff' : Z * Z -> res F') (nm : F -> res bool) (nm' : F' -> res bool) (sf : res F) (sf' : res F').
    Variable n : Z.
    Hypothesis Hff : forall d, same_res R (ff d) (ff' d).
    Hypothesis Hnm : forall f f', R f f' -> same_res eq (nm f) (nm' f').
    Hypothesis Hsf : same_res R sf sf'.
    Definition SRR (r : search_result F) (r' : search_result F') : Prop :=
      R (sr_fit r) (sr_fit r') /\ sr_degrees r' = sr_degrees r /\ sr_history r' = sr_history r.
    Lemma lower_rel fuel level d h : LG SRR (lower_loop ff nm sf fuel level d h) (lower_loop ff' nm' sf' fuel level d h).
    Proof.
      revert d h. induction fuel as [|fuel IH]; intros d h; cbn [lower_loop]; [apply lg_lift; rerr|].
      destruct ((fst d <=? 1) && (snd d <=? 1))%Z.
      - eapply lgb; [apply lg_refl|]. intros _ _ _. eapply lgb; [apply lg_lift; exact Hsf|]. intros f f' Hf. apply lg_ret. repeat split. exact Hf.
      - eapply lgb; [apply lg_refl|]. intros _ _ _. eapply lgb; [apply lg_lift; apply Hff|]. intros f f' Hf.
        eapply lgb; [apply lg_lift; apply Hnm; exact Hf|]. intros x x' <-. destruct x; [apply IH|]. apply lg_ret. repeat split. exact Hf.
    Qed.
    Lemma raise_rel fuel level d l l' h : R l l' -> LG SRR (raise_loop ff nm n fuel level d l h) (raise_loop ff' nm' n fuel level d l' h).
    Proof.
      revert d l l' h. induction fuel as [|fuel IH]; intros d l l' h Hl; cbn [raise_loop]; [apply lg_lift; rerr|].
      destruct (is_underdetermined _ n); [apply lg_ret; repeat split; exact Hl|].
      eapply lgb; [apply lg_lift; apply Hff|]. intros f f' Hf.
      eapply lgb; [apply lg_lift; apply Hnm; exact Hf|]. intros x x' <-. destruct x; [|apply IH; exact Hf].
      eapply lgb; [apply lg_refl|]. intros _ _ _. apply lg_ret. repeat split. exact Hl.
    Qed.
    Lemma adaptive_rel level u np na : LG SRR (adaptive_search ff nm sf n level u np na) (adaptive_search ff' nm' sf' n level u np na).
    Proof.
      unfold adaptive_search. eapply lgb; [apply lg_refl|]. intros d d' <-. eapply lgb; [apply lg_lift; apply Hff|]. intros f f' Hf.
      eapply lgb; [apply lg_lift; apply Hnm; exact Hf|]. intros x x' <-. destruct x; [apply lower_rel|apply raise_rel; exact Hf].
    Qed.
  End Adaptive.

  Context {V : Type}.
  Variable ecc_of : Q -> Q -> V.
  Variable vzero : V.
  Variable vneg : V -> bool.
  Variable find_extrema : bool -> res (list nat).
  Variable spline_val : list Q -> list Q -> nat -> Q -> Q.
  Variable pchip_val : list Q -> list Q -> Q -> Q.
  Variable rfit : list Q -> list Q -> Z * Z -> res curve.
  Variable slope_positive : list Q -> list V -> list bool.
  Hypothesis Hs : spline_affine spline_val.
  Hypothesis He : ecc_ratio a ecc_of.
  Hypothesis Hd : slope_affine a b slope_positive.

  Lemma r_spline_curve x x' y y' kw : LTT x x' -> LW y y' -> length x = length y ->
    same_res CR (spline_curve spline_val pchip_val x y kw) (spline_curve spline_val pchip_val x' y' kw).
  Proof.
    intros Hx Hy Hl. unfold spline_curve. apply lw in Hy.
    eapply rb; [exact (r_interpolant spline_val pchip_val Hs a b (1 / a) 0 x x' y y' kw Ha Hw Hx Hy Hl)|].
    intros f f' Hf. constructor. intros t t' Ht. eapply rmono; [|exact (Hf t t' Ht)]. intros u u' Hu. apply wt. exact Hu.
  Qed.

  Variables c c' : config.
  Hypothesis Hc : same_config a b c c'.
  Hypothesis Hr : c_interp c = SplineMethod \/ fit_affine a b rfit.
  Let Et := sc_t _ _ _ _ Hc.
  Let Edt := sc_data_t _ _ _ _ Hc.
  Let Ew := sc_omega _ _ _ _ Hc.
  Let Eph : exists k, LT 1 k (c_phase c) (c_phase c').
  Proof. apply (phases_T true). exact (sc_phase _ _ _ _ Hc). Qed.
  Ltac fields := pose proof (sc_rest _ _ _ _ Hc) as Rest; destruct Rest as [Rest1 Rest2]; injection Rest1 as R1 R2 R3 R4 R5;
    injection Rest2 as R6 R7 R8 R9 R10.

  Lemma rational_rel level np na x x' y y' : fit_affine a b rfit -> LTT x x' -> LW y y' -> length x = length y ->
    AR CR (rational_curve spline_val pchip_val rfit level c np na x y) (rational_curve spline_val pchip_val rfit level c' np na x' y').
  Proof.
    intros Hf Hx Hy Hl. unfold rational_curve.
    eapply arb; [apply (ar_read eq); intros s s' H; symmetry; apply (st_degrees _ _ H)|]. intros d d' <-.
    eapply arb; [apply ar_lift; apply f2_get; exact Hx|]. intros x0 x0' H0.
    eapply arb; [apply ar_lift; apply f2_last; exact Hx|]. intros xn xn' Hn.
    eapply arb; [apply ar_lift; apply f2_get; exact Et|]. intros t1 t1' H1.
    eapply arb; [apply ar_lift; apply f2_get; exact Et|]. intros t0 t0' Ht0.
    eapply arb; [apply ar_lift; eapply (r_arange a b); [exact Ha|exact H0|exact Hn|eapply T_minus; eassumption]|]. intros xt xt' Hxt.
    rewrite (f2_length _ _ _ Hx).
    eapply arb; [apply ar_log; apply (adaptive_rel CR)|].
    - intros e. unfold get_rational_fit, rational_init. rewrite (f2_length _ _ _ Hx), (f2_length _ _ _ Hy).
      destruct (negb _); [rerr|]. destruct (_ || _); [rerr|]. cbn [bind]. apply Hf; assumption.
    - intros f f' Hff. eapply rb; [apply r_eval_curve; [exact Hff|exact Hxt]|]. intros v v' Hv. apply r_nonmono; assumption.
    - apply r_spline_curve; assumption.
    - intros r r' (Q1 & Q2 & Q3). eapply arb; [apply ar_mod|intros _ _ _; apply ar_ret; exact Q1].
      intros s s' H. destruct H. constructor; cbn; try assumption.
  Qed.

  Lemma gather_length {A} (l : list A) idx r : gather l idx = Ok r -> length r = length idx.
  Proof.
    revert r. induction idx as [|i idx IH]; cbn; intros r H; [injection H as <-; reflexivity|].
    apply bind_ok in H. destruct H as (u & _ & H). apply bind_ok in H. destruct H as (v & E & H). injection H as <-. cbn. f_equal. apply IH. exact E.
  Qed.
  Lemma r_gather_len {A A'} (R : A -> A' -> Prop) l l' idx : Forall2 R l l' ->
    same_res (fun x x' => Forall2 R x x' /\ length x = length idx) (gather l idx) (gather l' idx).
  Proof.
    intros H. pose proof (r_gather R l l' idx H) as K. destruct (gather l idx) eqn:E.
    - inversion K; subst. constructor. split; [assumption|]. eapply gather_length; exact E.
    - inversion K; subst. constructor. assumption.
  Qed.

  Lemma dbg_rel msg level i : AR eq (alog (dbg msg level i)) (alog (dbg msg level i)).
  Proof. apply ar_log. apply lg_refl. Qed.
  Lemma warn_rel (x : bool) msg level i : AR eq (if x then alog (dbg msg level i) else aret tt) (if x then alog (dbg msg level i) else aret tt).
  Proof. destruct x; [apply dbg_rel|apply ar_ret; reflexivity]. Qed.

  Lemma extrema_rel level np na tc tc' loc : LTT tc tc' ->
    AR CR (extrema_curve spline_val pchip_val rfit level c np na tc loc) (extrema_curve spline_val pchip_val rfit level c' np na tc' loc).
  Proof.
    intros Htc. unfold extrema_curve. destruct (length loc <? 2)%nat; [aerr|].
    eapply arb; [apply ar_lift; apply r_gather_len; exact Et|]. intros x x' [Hx L].
    eapply arb; [apply ar_lift; apply r_gather_len; exact Ew|]. intros y y' [Hy L'].
    eapply arb.
    { instantiate (1 := CR). fields. rewrite R6, R9. destruct (c_interp c) eqn:E.
      - apply ar_lift. apply r_spline_curve; [exact Hx|exact Hy|congruence].
      - destruct Hr as [N|Hf]; [congruence|]. apply rational_rel; [exact Hf|exact Hx|exact Hy|congruence]. }
    intros f f' Hf. eapply arb; [apply ar_lift; apply r_eval_curve; [exact Hf|exact Htc]|]. intros v v' Hv.
    eapply arb; [apply ar_lift; apply r_nonmono; [exact Htc|exact Hv]|]. intros z z' <-.
    eapply arb; [apply warn_rel|]. intros _ _ _. apply ar_ret. exact Hf.
  Qed.

  Lemma r_averages loc : same_res LW (orbit_averages c loc) (orbit_averages c' loc).
  Proof.
    destruct Eph as [k Ek]. unfold orbit_averages. eapply rb; [apply r_gather; exact Ek|]. intros ph ph' Hph.
    eapply rb; [apply r_gather; exact Et|]. intros t t' Ht. eapply rmono; [|eapply r_qdivs1; [exact Ha|eapply t_qdiff; exact Hph|eapply t_qdiff; exact Ht]].
    intros x x' Hx. apply lw. exact Hx.
  Qed.
  Lemma r_times loc : same_res LTT (average_times c loc) (average_times c' loc).
  Proof. unfold average_times. eapply rb; [apply r_gather; exact Et|]. intros t t' Ht. constructor. apply t_midpoints. exact Ht. Qed.
  Lemma mono_rel l l' : LW l l' -> same_res eq (check_monotonicity l) (check_monotonicity l').
  Proof. intros H. apply lw in H. eapply t_monotonicity; [exact Hw|exact H]. Qed.
  Lemma r_orbit_averaged p q ts ts' : LTT ts ts' ->
    same_res LW (orbit_averaged spline_val pchip_val c p q ts) (orbit_averaged spline_val pchip_val c' p q ts').
  Proof.
    intros Hts. unfold orbit_averaged. fields. rewrite R10.
    eapply rb; [apply r_averages|]. intros wp wp' Hwp. eapply rb; [apply r_averages|]. intros wa wa' Hwa.
    eapply rb; [apply mono_rel; exact Hwp|]. intros _ _ _. eapply rb; [apply mono_rel; exact Hwa|]. intros _ _ _.
    eapply rb; [apply r_times|]. intros tp tp' Htp. eapply rb; [apply r_times|]. intros ta ta' Hta.
    assert (P : Forall2 (PR a b (1 / a) 0) (sort_pairs (combine (ta ++ tp) (wa ++ wp))) (sort_pairs (combine (ta' ++ tp') (wa' ++ wp')))).
    { apply t_sort; [exact Ha|]. apply f2_combine; [apply Forall2_app; assumption|]. apply Forall2_app; apply lw; assumption. }
    assert (P1 : LTT (map fst (sort_pairs (combine (ta ++ tp) (wa ++ wp)))) (map fst (sort_pairs (combine (ta' ++ tp') (wa' ++ wp'))))).
    { eapply f2_map; [|exact P]. intros z z' [Z _]. exact Z. }
    assert (P2 : LT (1 / a) 0 (map snd (sort_pairs (combine (ta ++ tp) (wa ++ wp)))) (map snd (sort_pairs (combine (ta' ++ tp') (wa' ++ wp'))))).
    { eapply f2_map; [|exact P]. intros z z' [_ Z]. exact Z. }
    cbv zeta. eapply rb; [apply mono_rel; apply lw; exact P2|]. intros _ _ _.
    eapply rmono; [|exact (r_interpolate spline_val pchip_val Hs a b (1 / a) 0 ts ts' _ _ _ _ (Some (c_general c)) Ha Hw Hts P1 P2)].
    intros x x' Hx. apply lw. exact Hx.
  Qed.
  Lemma read_peri : AR eq (p <~ aread s_peri ;; alift (attr p)) (p <~ aread s_peri ;; alift (attr p)).
  Proof.
    eapply arb; [apply (ar_read eq); intros s s' H; symmetry; apply (st_peri _ _ H)|]. intros p p' <-. apply ar_lift. apply res_refl.
  Qed.
  Lemma peri_k {B B'} (S : B -> B' -> Prop) f f' : (forall p, AR S (f p) (f' p)) ->
    AR S (p <~ aread s_peri ;; p <~ alift (attr p) ;; f p) (p <~ aread s_peri ;; p <~ alift (attr p) ;; f' p).
  Proof.
    intros K. eapply arb; [apply (ar_read eq); intros s s' H; symmetry; apply (st_peri _ _ H)|]. intros p p' <-.
    eapply arb; [apply ar_lift; apply res_refl|]. intros q q' <-. apply K.
  Qed.
  Lemma apo_k {B B'} (S : B -> B' -> Prop) f f' : (forall p, AR S (f p) (f' p)) ->
    AR S (p <~ aread s_apo ;; p <~ alift (attr p) ;; f p) (p <~ aread s_apo ;; p <~ alift (attr p) ;; f' p).
  Proof.
    intros K. eapply arb; [apply (ar_read eq); intros s s' H; symmetry; apply (st_apo _ _ H)|]. intros p p' <-.
    eapply arb; [apply ar_lift; apply res_refl|]. intros q q' <-. apply K.
  Qed.
  Lemma window_k {B B'} (S : B -> B' -> Prop) f f' :
    (forall w w', TT (fst w) (fst w') -> TT (snd w) (snd w') -> AR S (f w) (f' w')) ->
    AR S (w <~ aread s_window ;; w <~ alift (attr w) ;; f w) (w <~ aread s_window ;; w <~ alift (attr w) ;; f' w).
  Proof.
    intros K. eapply arb; [apply (ar_read OW); intros s s' H; exact (st_window _ _ H)|]. intros p p' Hp.
    eapply arb; [apply ar_lift; apply r_attr; exact Hp|]. intros q q' [H1 H2]. apply K; assumption.
  Qed.

  Lemma run_averaging_rel m ts ts' : LTT ts ts' ->
    AR LW (run_averaging spline_val pchip_val c m ts) (run_averaging spline_val pchip_val c' m ts').
  Proof.
    intros Hts. unfold run_averaging. destruct (m =? "mean_of_extrema_interpolants")%string.
    - eapply arb; [apply (ar_read CS); intros s s' H; exact (st_curves _ _ H)|]. intros cs cs' [H1 H2].
      eapply arb; [apply ar_lift; apply r_attr; exact H1|]. intros fp fp' Hfp.
      eapply arb; [apply ar_lift; apply r_attr; exact H2|]. intros fa fa' Hfa.
      eapply arb; [apply ar_lift; apply r_eval_curve; [exact Hfp|exact Hts]|]. intros vp vp' Hvp.
      eapply arb; [apply ar_lift; apply r_eval_curve; [exact Hfa|exact Hts]|]. intros va va' Hva.
      apply ar_ret. eapply f2_map2; [|exact Hvp|exact Hva]. intros x x' y y' Hx Hy. apply wt. apply T_mid; apply wt; assumption.
    - destruct (m =? "orbit_averaged_omega_gw")%string.
      + apply peri_k. intros p. apply apo_k. intros q. apply ar_lift. apply r_orbit_averaged. exact Hts.
      + destruct (m =? "omega_gw_zeroecc")%string; [|aerr].
        eapply arb; [apply ar_lift; apply r_attr; exact (sc_zeroecc _ _ _ _ Hc)|]. intros z z' [H1 H2]. fields. rewrite R10.
        apply ar_lift. apply lw in H2.
        eapply rmono; [|exact (r_interpolate spline_val pchip_val Hs a b (1 / a) 0 ts ts' _ _ _ _ (Some (c_general c)) Ha Hw Hts H1 H2)].
        intros x x' Hx. apply lw. exact Hx.
  Qed.
  Definition AVG (x x' : list Q * list Q) : Prop := LTT (fst x) (fst x') /\ LW (snd x) (snd x').
  Lemma average_rel m : AR AVG (get_omega_gw_average spline_val pchip_val c m) (get_omega_gw_average spline_val pchip_val c' m).
  Proof.
    unfold get_omega_gw_average. fields. rewrite R7. cbv zeta. set (mm := match m with None => c_average c | Some m => m end).
    eapply (arb (fun w w' => TT (fst w) (fst w') /\ TT (snd w) (snd w'))).
    - destruct (negb _).
      + eapply arb; [apply (ar_read OW); intros s s' H; exact (st_window _ _ H)|]. intros p p' Hp. apply ar_lift. apply r_attr. exact Hp.
      + apply peri_k. intros p. apply apo_k. intros q.
        eapply arb; [apply ar_lift; apply r_times|]. intros tp tp' Htp. eapply arb; [apply ar_lift; apply r_times|]. intros ta ta' Hta.
        apply window_k. intros w w' H1 H2. assert (H : LTT (ta ++ tp) (ta' ++ tp')) by (apply Forall2_app; assumption).
        eapply arb; [apply ar_lift; eapply r_qmin; [exact Ha|exact H]|]. intros lo lo' Hlo.
        eapply arb; [apply ar_lift; eapply r_qmax; [exact Ha|exact H]|]. intros hi hi' Hhi.
        apply ar_ret. split; cbn; [apply T_max|apply T_min]; assumption.
    - intros w w' [H1 H2]. assert (K : LTT (filter (fun t => Qle_bool (fst w) t && Qle_bool t (snd w)) (c_t c))
                                           (filter (fun t => Qle_bool (fst w') t && Qle_bool t (snd w')) (c_t c'))).
      { eapply f2_filter; [|exact Et]. intros x x' Hx. apply inside_eq; assumption. }
      eapply arb; [apply run_averaging_rel; exact K|]. intros v v' Hv. apply ar_ret. split; assumption.
  Qed.

  Lemma two_pi_nz : ~ (2 == 0)%Q /\ ~ (np_pi == 0)%Q /\ ~ (2 * np_pi == 0)%Q.
  Proof. repeat split; intro H; vm_compute in H; discriminate. Qed.
  Definition WW (x x' : Q * Q) : Prop := W (fst x) (fst x') /\ W (snd x) (snd x').
  Lemma avg_mod tv tv' : AVG tv tv' -> AR eq (amod (set_average (Some tv))) (amod (set_average (Some tv'))).
  Proof. intros K. apply ar_mod. intros s s' H. destruct H. constructor; cbn; try assumption. constructor. exact K. Qed.
  Lemma bounds_rel level m : AR WW (get_fref_bounds spline_val pchip_val level c m) (get_fref_bounds spline_val pchip_val level c' m).
  Proof.
    unfold get_fref_bounds. fields. rewrite R8. eapply arb; [apply warn_rel|]. intros _ _ _.
    eapply arb; [apply (ar_read OA); intros s s' H; exact (st_average _ _ H)|]. intros o o' Ho.
    eapply (arb LW).
    - destruct Ho as [|x x' [H1 H2]]; [|apply ar_ret; exact H2].
      eapply arb; [apply average_rel|]. intros tv tv' K.
      eapply arb; [apply avg_mod; exact K|]. intros _ _ _. apply ar_ret. apply K.
    - intros v v' Hv. apply lw in Hv. eapply arb; [apply ar_lift; eapply r_qmin; [exact Hw|exact Hv]|]. intros lo lo' Hlo.
      eapply arb; [apply ar_lift; eapply r_qmax; [exact Hw|exact Hv]|]. intros hi hi' Hhi.
      destruct two_pi_nz as (N1 & N2 & _). apply ar_ret. split; cbn; apply wt; repeat (apply T_div; [assumption|]); assumption.
  Qed.
  Lemma fref_out_rel level fr fr' m : LW fr fr' ->
    AR LW (get_fref_out spline_val pchip_val level c fr m) (get_fref_out spline_val pchip_val level c' fr' m).
  Proof.
    intros Hfr. unfold get_fref_out. eapply arb; [apply bounds_rel|]. intros w w' [H1 H2]. cbv zeta.
    assert (K : LW (filter (fun f => Qle_bool (fst w) f && Qlt_bool f (snd w)) fr) (filter (fun f => Qle_bool (fst w') f && Qlt_bool f (snd w')) fr')).
    { eapply f2_filter; [|exact Hfr]. intros x x' Hx. apply wt in Hx, H1, H2.
      rewrite (T_le _ _ _ _ _ _ Hw H1 Hx), (T_lt _ _ _ _ _ _ Hw Hx H2). reflexivity. }
    destruct K as [|x x' l l' Hx K]; [|apply ar_ret; constructor; assumption].
    eapply arb; [|intros _ _ _; aerr]. apply ar_lift. apply lw in Hfr. apply wt in H1, H2. eapply t_limits; [exact Hw|exact Hfr|exact H1|exact H2].
  Qed.
  Lemma tref_fref_rel level fr fr' : LW fr fr' ->
    AR AVG (tref_fref_from_fref spline_val pchip_val level c fr) (tref_fref_from_fref spline_val pchip_val level c' fr').
  Proof.
    intros Hfr. unfold tref_fref_from_fref. fields. rewrite R7, R10. destruct (existsb _ _); [|aerr].
    eapply arb; [apply fref_out_rel; exact Hfr|]. intros fo fo' Hfo. eapply arb; [apply average_rel|]. intros tv tv' K.
    eapply arb; [apply avg_mod; exact K|]. intros _ _ _. destruct K as [K1 K2]. eapply arb; [apply ar_lift; apply mono_rel; exact K2|]. intros _ _ _.
    eapply arb.
    { apply ar_lift. apply lw in Hfo. eapply (r_interpolate spline_val pchip_val Hs (1 / a) 0 a b); [exact Hw|exact Ha|exact Hfo| |exact K1].
      eapply f2_map; [|exact K2]. intros x x' Hx. apply wt in Hx. apply T_div; [apply two_pi_nz|exact Hx]. }
    intros tr tr' Htr. rewrite (diff_le0 a b tr tr' Ha Htr). eapply arb; [apply warn_rel|]. intros _ _ _. apply ar_ret. split; assumption.
  Qed.

  Lemma r_ecc fp fp' fa fa' lo lo' hi hi' ts ts' : CR fp fp' -> CR fa fa' -> TT lo lo' -> TT hi hi' -> LTT ts ts' ->
    same_res eq (compute_eccentricity ecc_of fp fa lo hi ts) (compute_eccentricity ecc_of fp' fa' lo' hi' ts').
  Proof.
    intros Hp Hq Hlo Hhi Hts. unfold compute_eccentricity.
    eapply rb; [eapply t_limits; [exact Ha|exact Hts|exact Hlo|exact Hhi]|]. intros _ _ _.
    eapply rb; [apply r_eval_curve; [exact Hp|exact Hts]|]. intros vp vp' Hvp.
    eapply rb; [apply r_eval_curve; [exact Hq|exact Hts]|]. intros va va' Hva. constructor. symmetry. apply f2_eq.
    eapply f2_map2; [|exact Hvp|exact Hva]. intros x x' y y' Hx Hy. apply He; assumption.
  Qed.
  Lemma r_mean tp tp' lo lo' hi hi' ts ts' : LTT tp tp' -> TT lo lo' -> TT hi hi' -> LTT ts ts' ->
    same_res (Forall2 Qeq) (compute_mean_anomaly tp lo hi ts) (compute_mean_anomaly tp' lo' hi' ts').
  Proof.
    intros Hp Hlo Hhi Hts. unfold compute_mean_anomaly.
    eapply rb; [eapply t_limits; [exact Ha|exact Hts|exact Hlo|exact Hhi]|]. intros _ _ _. constructor.
    eapply f2_map; [|exact Hts]. intros x x' Hx. eapply t_mean_at; [exact Ha|exact Hp|exact Hx].
  Qed.
  Lemma monotone_rel level fp fp' fa fa' lo lo' hi hi' ts ts' : CR fp fp' -> CR fa fa' -> TT lo lo' -> TT hi hi' -> LTT ts ts' ->
    AR eq (check_ecc_monotone ecc_of slope_positive level c fp fa lo hi ts) (check_ecc_monotone ecc_of slope_positive level c' fp' fa' lo' hi' ts').
  Proof.
    intros Hp Hq Hlo Hhi Hts. unfold check_ecc_monotone. fields. rewrite R10.
    eapply arb; [apply (ar_read eq); intros s s' H; symmetry; apply (st_decc _ _ H)|]. intros d d' <-.
    eapply (arb eq); [|intros z z' <-; apply warn_rel]. destruct d as [d|]; [apply ar_ret; reflexivity|].
    eapply arb; [apply ar_lift; eapply t_limits; [exact Ha|exact Hts|exact Hlo|exact Hhi]|]. intros _ _ _.
    eapply arb; [apply ar_lift; eapply r_ecc; eassumption|]. intros e e' <-.
    eapply (arb (fun _ _ => True)).
    { apply ar_lift. unfold get_interpolant. rewrite (t_increasing a b ts ts' Ha Hts), (f2_length _ _ _ Hts).
      destruct (negb _); [rerr|]. change (("spline" =? "spline")%string) with true. cbv iota.
      destruct (_ <? 2)%nat; [rerr|]. destruct (_ <=? _)%nat; constructor; exact I. }
    intros _ _ _. cbv zeta. rewrite (Hd ts ts' e Hts). eapply arb; [apply ar_mod|intros _ _ _; apply ar_ret; reflexivity].
    intros s s' H. destruct H. constructor; cbn; try assumption. reflexivity.
  Qed.

  Lemma f2_len0 {A A'} (R : A -> A' -> Prop) l l' : Forall2 R l l' -> (length l' =? 1)%nat = (length l =? 1)%nat.
  Proof. intros H. rewrite (f2_length _ _ _ H). reflexivity. Qed.
  Definition REF (r r' : list Q) : Prop := match c_ref c with TimeRef _ => LTT r r' | FreqRef _ => LW r r' end.
  Lemma r_result ecc mean mean' ref ref' : Forall2 Qeq mean mean' -> REF ref ref' ->
    same_res (@same_result V a b) (make_result c ecc mean ref) (make_result c' ecc mean' ref').
  Proof.
    intros Hm Hf. unfold make_result. fields. rewrite R1, (f2_len0 _ _ _ Hm). unfold REF in Hf.
    pose proof (sc_ref _ _ _ _ Hc) as Rr.
    destruct (c_scalar c).
    - destruct (negb (length ecc =? 1)%nat); [rerr|]. destruct (negb _); [rerr|].
      eapply rb; [apply res_refl|]. intros e e' <-. eapply rb; [apply f2_get; exact Hm|]. intros m m' Hmm.
      destruct Rr as [l l' Hl|l l' Hl]; (eapply rb; [apply f2_get; exact Hf|]); intros x x' Hx; constructor; constructor; cbn;
        repeat constructor; assumption.
    - destruct Rr as [l l' Hl|l l' Hl]; constructor; constructor; cbn; repeat constructor; assumption.
  Qed.

  Lemma from_extrema_rel level p q : AR (@same_result V a b)
    (measure_from_extrema ecc_of vneg spline_val pchip_val rfit slope_positive level c p q)
    (measure_from_extrema ecc_of vneg spline_val pchip_val rfit slope_positive level c' p q).
  Proof.
    unfold measure_from_extrema.
    eapply arb; [apply ar_lift; apply r_gather; exact Et|]. intros tp tp' Htp.
    eapply arb; [apply ar_lift; apply r_gather; exact Et|]. intros ta ta' Hta.
    eapply arb; [apply ar_lift; apply f2_last; exact Htp|]. intros pl pl' Hpl.
    eapply arb; [apply ar_lift; apply f2_last; exact Hta|]. intros al al' Hal. cbv zeta.
    eapply arb; [apply ar_lift; apply f2_get; exact Htp|]. intros pf pf' Hpf.
    eapply arb; [apply ar_lift; apply f2_get; exact Hta|]. intros af af' Haf.
    pose proof (T_min a b pl al pl' al' Ha Hpl Hal) as Hmax. pose proof (T_max a b pf af pf' af' Ha Hpf Haf) as Hmin.
    set (tmax := Qminb pl al) in *. set (tmax' := Qminb pl' al') in *. set (tmin := Qmaxb pf af) in *. set (tmin' := Qmaxb pf' af') in *.
    assert (Hin : forall l l', LTT l l' -> LTT (filter (fun t => Qle_bool tmin t && Qle_bool t tmax) l) (filter (fun t => Qle_bool tmin' t && Qle_bool t tmax') l')).
    { intros l l' Hl. eapply f2_filter; [|exact Hl]. intros x x' Hx. apply inside_eq; assumption. }
    eapply arb.
    { apply ar_mod. intros s s' H. destruct H. constructor; cbn; try assumption. constructor. split; assumption. }
    intros _ _ _. pose proof (Hin _ _ Edt) as Hcheck.
    set (tc := filter _ (c_data_t c)) in *. set (tc' := filter _ (c_data_t c')) in *.
    eapply arb; [apply extrema_rel; exact Hcheck|]. intros fp fp' Hfp.
    eapply arb; [apply (ar_read CS); intros s s' H; exact (st_curves _ _ H)|]. intros cs cs' [_ Hcs].
    eapply arb.
    { apply ar_mod. intros s s' H. destruct H. constructor; cbn; try assumption. split; [constructor; exact Hfp|exact Hcs]. }
    intros _ _ _. eapply arb; [apply extrema_rel; exact Hcheck|]. intros fa fa' Hfa.
    eapply arb.
    { apply ar_mod. intros s s' H. destruct H. constructor; cbn; try assumption. split; constructor; assumption. }
    intros _ _ _.
    eapply (arb AVG).
    { destruct (sc_ref _ _ _ _ Hc) as [l l' Hl|l l' Hl]; [apply ar_ret; split; [exact Hl|constructor]|apply tref_fref_rel; exact Hl]. }
    intros tf tf' [Ht Hf]. pose proof (Hin _ _ Ht) as Hout.
    set (to := filter _ (fst tf)) in *. set (to' := filter _ (fst tf')) in *.
    eapply (arb eq).
    { destruct (sc_ref _ _ _ _ Hc) as [l l' Hl|l l' Hl]; [apply ar_ret; reflexivity|].
      rewrite (f2_length _ _ _ Hf), (f2_length _ _ _ Hout). destruct (negb _); [aerr|apply ar_ret; reflexivity]. }
    intros _ _ _. eapply (arb eq).
    { assert (K := Hout). destruct K; [|apply ar_ret; reflexivity].
      eapply arb; [apply ar_lift; eapply t_limits; [exact Ha|exact Ht|exact Hmin|exact Hmax]|]. intros _ _ _. aerr. }
    intros _ _ _. eapply arb; [apply ar_lift; apply f2_get; exact Hout|]. intros r0 r0' H0.
    eapply arb; [apply ar_lift; apply f2_last; exact Hout|]. intros rn rn' Hn.
    rewrite (T_lt a b r0 pf r0' pf' Ha H0 Hpf), (T_lt a b pl rn pl' rn' Ha Hpl Hn).
    eapply (arb eq); [destruct (_ || _); [aerr|apply ar_ret; reflexivity]|]. intros _ _ _.
    eapply arb; [apply ar_lift; eapply r_ecc; eassumption|]. intros ecc ecc' <-.
    eapply arb; [apply ar_lift; eapply r_mean; eassumption|]. intros mean mean' Hmean.
    eapply arb; [apply monotone_rel; eassumption|]. intros _ _ _.
    eapply arb; [apply warn_rel|]. intros _ _ _. apply ar_lift. apply r_result; [exact Hmean|].
    unfold REF. destruct (sc_ref _ _ _ _ Hc) as [l l' Hl|l l' Hl]; assumption.
  Qed.

  Lemma alternate_rel level p q : LG eq (check_alternate level (c_t c) p q) (check_alternate level (c_t c') p q).
  Proof.
    unfold check_alternate. destruct (level <? 1)%Z; [apply lg_refl|]. destruct (2 <=? _)%Z; [apply lg_refl|].
    eapply (lgb eq).
    - destruct (length p =? length q)%nat; [|apply lg_refl].
      eapply lgb; [apply lg_lift; apply r_gather; exact Et|]. intros tp tp' Htp. eapply lgb; [apply lg_lift; apply f2_get; exact Htp|]. intros u u' Hu.
      eapply lgb; [apply lg_lift; apply r_gather; exact Et|]. intros ta ta' Hta. eapply lgb; [apply lg_lift; apply f2_get; exact Hta|]. intros v v' Hv.
      apply lg_ret. symmetry. eapply T_lt; [exact Ha|exact Hu|exact Hv].
    - intros x x' <-. cbv zeta. eapply lgb; [apply lg_lift; apply r_gather; exact Et|]. intros t t' Ht.
      rewrite (diff_lt0 a b t t' Ha Ht). destruct (existsb _ _); apply lg_refl.
  Qed.
  Lemma separation_rel level loc : LG eq (check_separation level (c_t c) (c_phase c) loc) (check_separation level (c_t c') (c_phase c') loc).
  Proof.
    destruct Eph as [k Ek]. unfold check_separation. destruct (level <? 1)%Z; [apply lg_refl|]. eapply lgb; [apply lg_lift; apply r_gather; exact Ek|]. intros ph ph' Hph. cbv zeta.
    eapply lgb; [apply lg_lift; apply r_gather; exact Et|]. intros _ _ _.
    assert (Hdd : LT 1 0 (qdiff (map (fun x => x / 2)%Q ph)) (qdiff (map (fun x => x / 2)%Q ph'))).
    { eapply t_qdiff. eapply (f2_map _ (T 1 (k / 2))); [|exact Hph]. intros x x' Hx. unfold same_time in *. rewrite Hx. field. }
    set (d := qdiff _) in *. set (d' := qdiff (map _ ph')) in *. clearbody d d'.
    rewrite (f2_existsb _ (fun x => Qlt_bool x np_pi) (fun x => Qlt_bool x np_pi) d d' (fun x x' Hx => T1_lt x x' np_pi np_pi Hx (T1_refl _)) Hdd).
    rewrite (f2_existsb _ (fun x => Qlt_bool (Qabs (x - np_pi)) (Qabs (x - 2 * np_pi))) (fun x => Qlt_bool (Qabs (x - np_pi)) (Qabs (x - 2 * np_pi))) d d'
      (fun x x' Hx => T1_lt _ _ _ _ (T1_abs _ _ np_pi Hx) (T1_abs _ _ (2 * np_pi) Hx)) Hdd).
    rewrite (ratios_gt max_ratio d d' Hdd). apply lg_refl.
  Qed.
  Lemma num_extrema_rel n : LG eq (check_num_extrema c n) (check_num_extrema c' n).
  Proof.
    destruct Eph as [k Ek]. unfold check_num_extrema. fields. rewrite R5. destruct (n <? 2); [|apply lg_refl].
    eapply lgb; [apply lg_lift; apply f2_last; exact Ek|]. intros y y' Hy. eapply lgb; [apply lg_lift; apply f2_get; exact Ek|]. intros x x' Hx. cbv zeta.
    pose proof (T_minus _ _ _ _ _ _ Hy Hx) as D. rewrite (T1_lt 5 5 ((y - x) / (4 * np_pi)) ((y' - x') / (4 * np_pi)) (T1_refl _)); [apply lg_refl|].
    unfold same_time in *. rewrite D. field. discriminate.
  Qed.
  Lemma good_rel level p q : LG eq (get_good_extrema level (c_phase c) p q) (get_good_extrema level (c_phase c') p q).
  Proof.
    destruct Eph as [k Ek]. unfold get_good_extrema.
    eapply lgb; [eapply jumps_rel; exact Ek|]. intros p1 ? <-. eapply lgb; [eapply jumps_rel; exact Ek|]. intros q1 ? <-.
    eapply lgb; [eapply close_rel; exact Ek|]. intros p2 ? <-. eapply lgb; [eapply close_rel; exact Ek|]. intros q2 ? <-. apply lg_refl.
  Qed.

  Theorem measure_rel level : AR (@same_result V a b)
    (measure_ecc ecc_of vzero vneg find_extrema spline_val pchip_val rfit slope_positive level c)
    (measure_ecc ecc_of vzero vneg find_extrema spline_val pchip_val rfit slope_positive level c').
  Proof.
    unfold measure_ecc. eapply arb; [apply ar_lift; apply res_refl|]. intros peri peri' <-. 
    eapply arb; [apply ar_log; apply num_extrema_rel|]. intros fp fp' <-. pose proof (sc_rest _ _ _ _ Hc) as [Rest1 Rest2].
    injection Rest1 as R1 R2 R3 R4 R5. rewrite R2, R3, R4, R5.
    eapply (arb eq); [destruct (c_midpoints c); [apply ar_ret; reflexivity|apply ar_lift; apply res_refl]|]. intros apo apo' <-.
    eapply arb; [apply ar_log; apply num_extrema_rel|]. intros fa fa' <-.
    assert (Hzero : forall z, AR eq (amod (set_zero z)) (amod (set_zero z))).
    { intros z. apply ar_mod. intros s s' H. destruct H. constructor; cbn; try assumption. reflexivity. }
    assert (Hloc : forall x y, AR eq (amod (set_locations x y)) (amod (set_locations x y))).
    { intros x y. apply ar_mod. intros s s' H. destruct H. constructor; cbn; try assumption; reflexivity. }
    destruct ((fp || fa) && c_return_zero c).
    - eapply arb; [apply Hzero|]. intros _ _ _. apply ar_lift. unfold zero_result.
      pose proof (sc_ref _ _ _ _ Hc) as Rr.
      assert (G : forall l l' : list Q, length l' = length l -> REF l l' ->
        same_res (@same_result V a b) (make_result c (map (fun _ => vzero) l) (map (fun _ => 0%Q) l) l)
                                      (make_result c' (map (fun _ => vzero) l') (map (fun _ => 0%Q) l') l')).
      { intros l l' Hl HR. assert (Em : forall (X : Type) (x : X), map (fun _ : Q => x) l' = map (fun _ => x) l).
        { intros X x. apply map_const_len. exact Hl. }
        rewrite !Em. apply r_result; [apply f2_refl; reflexivity|exact HR]. }
      unfold REF in G. destruct Rr as [l l' Hl|l l' Hl]; apply G; try (eapply f2_length; exact Hl); exact Hl.
    - eapply arb; [apply Hzero|]. intros _ _ _. eapply arb; [apply ar_log; apply good_rel|]. intros good good' <-.
      eapply arb; [apply Hloc|]. intros _ _ _. eapply arb; [apply ar_log; apply lg_refl|]. intros _ _ _.
      eapply arb; [apply ar_log; apply lg_refl|]. intros _ _ _. cbv zeta.
      eapply arb; [apply Hloc|]. intros _ _ _. eapply arb; [apply ar_log; apply alternate_rel|]. intros _ _ _.
      eapply arb; [apply ar_log; apply separation_rel|]. intros _ _ _. eapply arb; [apply ar_log; apply separation_rel|]. intros _ _ _.
      apply from_extrema_rel.
  Qed.

  Notation ops := (run_ops ecc_of vzero vneg find_extrema spline_val pchip_val rfit slope_positive).
  Lemma run_ops_rel level os : forall s s', SR s s' ->
    Forall2 (same_reply a b) (fst (ops level c os s)) (fst (ops level c' os s')) /\ SR (snd (ops level c os s)) (snd (ops level c' os s')).
  Proof.
    induction os as [|o os IH]; intros s s' H; cbn [run_ops]; [split; [constructor|exact H]|].
    assert (G : same_reply a b (fst (run_op ecc_of vzero vneg find_extrema spline_val pchip_val rfit slope_positive level c o s))
                               (fst (run_op ecc_of vzero vneg find_extrema spline_val pchip_val rfit slope_positive level c' o s')) /\
                SR (snd (run_op ecc_of vzero vneg find_extrema spline_val pchip_val rfit slope_positive level c o s))
                   (snd (run_op ecc_of vzero vneg find_extrema spline_val pchip_val rfit slope_positive level c' o s'))).
    { destruct o as [|m|]; cbn [run_op].
      - pose proof (measure_rel level s s' H) as (_ & K1 & K2). destruct (measure_ecc _ _ _ _ _ _ _ _ _ c s) as [w [s1 r]].
        destruct (measure_ecc _ _ _ _ _ _ _ _ _ c' s') as [w' [s1' r']]. cbn in *. split; [constructor; exact K2|exact K1].
      - pose proof (bounds_rel level m s s' H) as (_ & K1 & K2). destruct (get_fref_bounds _ _ _ c m s) as [w [s1 r]].
        destruct (get_fref_bounds _ _ _ c' m s') as [w' [s1' r']]. cbn in *. split; [constructor; exact K2|exact K1].
      - split; [constructor|]. destruct H. constructor; cbn; try assumption. constructor. }
    destruct (run_op _ _ _ _ _ _ _ _ _ c o s) as [y s1]. destruct (run_op _ _ _ _ _ _ _ _ _ c' o s') as [y' s1']. cbn [fst snd] in G.
    destruct G as [G1 G2]. specialize (IH _ _ G2). destruct (ops level c os s1), (ops level c' os s1'). cbn in *. destruct IH. split; [constructor|]; assumption.
  Qed.
End Rel.
