From Coq Require Import Lia Lqa Qfield.
From Verif Require Import Base BaseLemmas UtilsModel UtilsSpec UtilsLemmas ExtremaModel RationalModel MeasureModel SegmentModel DataModel DataLemmas DataLemmas2 InitModel InitLemmas InitOptions ScaleSpec ScaleCallSpec ScaleLemmas ScaleMeasure ScalePeak ScaleData.
Open Scope string_scope.
Open Scope nat_scope.
Open Scope list_scope.

Section Call.
  Context {C V : Type}.
  Variables (a b : Q) (og : change) (kinds : nat -> kind) (L : library C V).
  Hypothesis Ha : (0 < a)%Q.
  Hypothesis HL : library_scale a b L.
  Let Ha0 : ~ (a == 0)%Q.
  Proof. lra. Qed.
  Let Hw := inv_pos a Ha.
  Notation TT := (same_time a b).
  Notation LTT := (same_times a b).
  Notation W1 := (same_freq a).
  Notation LW := (same_freqs a).
  Notation SV := (same_value (C := C) a b og kinds).
  Notation SD := (same_dict (C := C) a b og kinds).
  Notation SH := (same_heap (C := C) a b og kinds).
  Notation SW := (same_world (C := C) a b og kinds).

  Definition WR {A A'} (R : A -> A' -> Prop) (m : world C -> world C * lg A) (m' : world C -> world C * lg A') : Prop := forall w w', SW w w' ->
    SW (fst (m w)) (fst (m' w')) /\ LG R (snd (m w)) (snd (m' w')).
  Lemma wrb {A A' B B'} (R : A -> A' -> Prop) (S : B -> B' -> Prop) m m' f f' :
    WR R m m' -> (forall x x', R x x' -> WR S (f x) (f' x')) -> WR S (wbind m f) (wbind m' f').
  Proof.
    intros H K h h' Hh. specialize (H h h' Hh). unfold wbind. destruct (m h) as [h1 [w r]], (m' h') as [h1' [w' r']].
    cbn [fst snd] in *. destruct H as (H1 & H2 & H3). cbn [fst snd] in H2, H3. subst w'. destruct H3 as [x x' H|e e' H].
    - specialize (K x x' H h1 h1' H1). destruct (f x h1) as [h2 [v y]], (f' x' h1') as [h2' [v' y']]. cbn [fst snd] in *.
      destruct K as (K1 & K2 & K3). cbn in *. subst v'. split; [exact K1|]. split; [reflexivity|exact K3].
    - split; [exact H1|]. split; [reflexivity|]. cbn. constructor. exact H.
  Qed.
  Lemma wr_log {A A'} (R : A -> A' -> Prop) m m' : LG R m m' -> WR R (wlog m) (wlog m').
  Proof. intros H h h' Hh. split; [exact Hh|exact H]. Qed.
  Lemma wr_lift {A A'} (R : A -> A' -> Prop) m m' : same_res R m m' -> WR R (wlift m) (wlift m').
  Proof. intros H h h' Hh. split; [exact Hh|apply lg_lift; exact H]. Qed.
  Lemma wr_ret {A A'} (R : A -> A' -> Prop) x x' : R x x' -> WR R (wret x) (wret x').
  Proof. intros H h h' Hh. split; [exact Hh|apply lg_ret; exact H]. Qed.
  Lemma wr_read {A A'} (R : A -> A' -> Prop) f f' : (forall h h', SH h h' -> same_res R (f h) (f' h')) -> WR R (wread f) (wread f').
  Proof. intros H h h' Hh. split; [exact Hh|apply lg_lift; apply H; apply Hh]. Qed.
  Lemma wr_heap {A A'} (R : A -> A' -> Prop) m m' : MR a b C og kinds R m m' -> WR R (on_heap m) (on_heap m').
  Proof.
    intros H w w' Hh. destruct (H _ _ (sw_heap _ _ _ _ _ _ Hh)) as [K1 K2]. split; [|exact K2]. constructor; [exact K1|exact (sw_extra _ _ _ _ _ _ Hh)].
  Qed.
  Lemma wr_extra e : WR eq (set_extra e) (set_extra e).
  Proof. intros w w' Hh. split; [|apply lg_ret; reflexivity]. constructor; [exact (sw_heap _ _ _ _ _ _ Hh)|reflexivity]. Qed.

  Notation SF := (same_filtered a og).
  Lemma wr_filter tm tm' d d' : filter_scale a b og kinds (lib_filter L) -> TT tm tm' -> SD d d' ->
    WR (fun x x' => SF (fst x) (fst x') /\ snd x' = snd x) (filter_step L tm d) (filter_step L tm' d').
  Proof.
    intros HF Htm Hd w w' Hh. unfold filter_step. rewrite (sw_extra _ _ _ _ _ _ Hh). generalize (wd_extra w). intros e. revert w w' Hh.
    match goal with |- forall w w', _ -> SW (fst (?m w)) (fst (?m' w')) /\ _ => change (WR (fun x x' => SF (fst x) (fst x') /\ snd x' = snd x) m m') end.
    cbv zeta. eapply wrb; [apply wr_lift; apply res_refl|]. intros u ? <-. eapply wrb; [apply wr_lift; apply res_refl|]. intros fk ? <-.
    eapply (wrb eq).
    { destruct e as [e|]; [|apply wr_ret; reflexivity]. destruct (slookup e "filter_kwargs") as [[|]|]; try (apply wr_ret; reflexivity). apply wr_extra. }
    intros _ _ _. eapply (wrb SD); [apply wr_read; intros; constructor; eapply sd_deepcopy; assumption|]. intros cp cp' Hcp.
    eapply wrb; [apply wr_log; apply HF; eassumption|]. intros fl fl' Hfl.
    eapply (wrb eq); [destruct e; [apply wr_extra|apply wr_ret; reflexivity]|]. intros _ _ _. apply wr_ret. split; [exact Hfl|reflexivity].
  Qed.

  (** ** The short segment *)
  Record WV (w w' : wave) : Prop := { wv_t : LTT (w_t w) (w_t w'); wv_amp : LT (amp_unit og) 0 (w_amp w) (w_amp w'); wv_phase : same_phases (ch_phases og) (w_phase w) (w_phase w');
    wv_omega : LW (w_omega w) (w_omega w') }.
  Lemma r_nearest p q l l' x x' : (0 < p)%Q -> LT p q l l' -> T p q x x' -> same_res eq (nearest l x) (nearest l' x').
  Proof. intros Hp H Hx. unfold nearest. rewrite (t_nearest p q l l' x x' Hp H Hx). apply res_refl. Qed.
  Lemma wv_phaseT w w' : WV w w' -> exists k, LT 1 k (w_phase w) (w_phase w').
  Proof. intros H. apply phases_T with (o := ch_phases og). apply H. Qed.
  Lemma r_approx w w' f f' : secular_scale a b (lib_secular L) -> WV w w' -> W1 f f' -> same_res TT (approximate_tref (lib_secular L) w f) (approximate_tref (lib_secular L) w' f').
  Proof.
    intros HS Hw' Hf. unfold approximate_tref. pose proof (wv_omega _ _ Hw') as Ho. pose proof Ho as Ho'. apply (freqs_T a _ _ Ha0) in Ho'.
    assert (Hr : T (1 / a) 0 (2 * np_pi * f) (2 * np_pi * f')) by (apply (freq_T a _ _ Ha0) in Hf; unfold same_time in *; rewrite Hf; ring).
    rewrite (f2_where (T (1 / a) 0) (fun x => Qle_bool (2 * np_pi * f) x) (fun x => Qle_bool (2 * np_pi * f') x) _ _
      (fun x x' Hx => T_le (1 / a) 0 _ x _ x' Hw Hr Hx) Ho').
    rewrite (f2_where (T (1 / a) 0) (fun x => Qle_bool x (2 * np_pi * f)) (fun x => Qle_bool x (2 * np_pi * f')) _ _
      (fun x x' Hx => T_le (1 / a) 0 x _ x' _ Hw Hx Hr) Ho').
    destruct (wv_phaseT _ _ Hw') as [k Hp]. assert (H01 : (0 < 1)%Q) by reflexivity. cbv zeta. eapply rb; [apply res_refl|]. intros lr ? <-.
    eapply rb; [apply f2_get; exact Hp|]. intros pl pl' Hpl. eapply rb; [apply f2_get; exact Hp|]. intros pr pr' Hpr.
    assert (D : T 1 0 ((pr - pl) / (4 * np_pi)) ((pr' - pl') / (4 * np_pi))) by (unfold same_time in *; rewrite Hpr, Hpl; unfold Qdiv; ring).
    rewrite (T1_lt _ _ _ _ D (T1_refl 5)).
    assert (Dl : T 1 k (pl - (5 # 2) * 4 * np_pi) (pl' - (5 # 2) * 4 * np_pi)) by (unfold same_time in *; rewrite Hpl; ring).
    assert (Dr : T 1 k (pr + (5 # 2) * 4 * np_pi) (pr' + (5 # 2) * 4 * np_pi)) by (unfold same_time in *; rewrite Hpr; ring).
    rewrite (f2_where (T 1 k) (fun x => Qle_bool (pl - (5 # 2) * 4 * np_pi) x) (fun x => Qle_bool (pl' - (5 # 2) * 4 * np_pi) x) _ _ (fun x x' Hx => T_le 1 k _ x _ x' H01 Dl Hx) Hp).
    rewrite (f2_where (T 1 k) (fun x => Qle_bool (pr + (5 # 2) * 4 * np_pi) x) (fun x => Qle_bool (pr' + (5 # 2) * 4 * np_pi) x) _ _ (fun x x' Hx => T_le 1 k _ x _ x' H01 Dr Hx) Hp).
    match goal with |- context [fst (if ?c then ?x else ?y)] => set (lz := if c then x else y) end.
    pose proof (f2_zslice _ (Z.of_nat (fst lz)) (snd lz) _ _ (wv_t _ _ Hw')) as Ht. pose proof (f2_zslice _ (Z.of_nat (fst lz)) (snd lz) _ _ Ho) as Hz.
    rewrite (f2_length _ _ _ Ht). match goal with |- context [every ?s] => set (st := s) end.
    pose proof (f2_every _ st _ _ Ht) as Ht2. pose proof (f2_every _ st _ _ Hz) as Hz2.
    eapply rb; [apply HS; eassumption|]. intros m m' Hm. apply (freqs_T a _ _ Ha0) in Hm.
    eapply rb; [apply (r_nearest (1 / a) 0); eassumption|]. intros i ? <-. apply f2_get. exact Ht2.
  Qed.
  Lemma r_find_index {A A'} (R : A -> A' -> Prop) p p' l l' : (forall x x', R x x' -> p' x' = p x) -> Forall2 R l l' -> find_index p' l' = find_index p l.
  Proof. intros Hp H. unfold find_index. generalize 0. induction H as [|x x' l l' Hx H IH]; intros i; cbn; [reflexivity|]. rewrite (Hp x x' Hx), IH. reflexivity. Qed.
  Lemma r_orbits n x x' y y' : T 1 0 x x' -> T 1 0 y y' -> T 1 0 (additional_orbits n x y) (additional_orbits n x' y').
  Proof.
    intros Hx Hy. unfold additional_orbits, Qmaxb. assert (H01 : (0 < 1)%Q) by reflexivity.
    assert (D : T 1 0 ((1 # 2) * n - x / four_pi_k - y) ((1 # 2) * n - x' / four_pi_k - y')) by (unfold same_time in *; rewrite Hx, Hy; unfold Qdiv; ring).
    set (u := ((1 # 2) * n - x / four_pi_k - y)%Q) in *. set (u' := ((1 # 2) * n - x' / four_pi_k - y')%Q) in *. clearbody u u'.
    rewrite ?(T_le 1 0 u 0 u' 0 H01 D (T1_refl 0)), ?(T_le 1 0 0 u 0 u' H01 (T1_refl 0) D), ?(T_lt 1 0 u 0 u' 0 H01 D (T1_refl 0)), ?(T_lt 1 0 0 u 0 u' H01 (T1_refl 0) D).
    destruct (_ : bool); first [exact D|apply T1_refl].
  Qed.
  Lemma r_indices k n ph ph' pl pl' pr pr' : LT 1 k ph ph' -> T 1 k pl pl' -> T 1 k pr pr' -> same_res eq (segment_indices n ph pl pr) (segment_indices n ph' pl' pr').
  Proof.
    intros Hp Hl Hr. unfold segment_indices. assert (H01 : (0 < 1)%Q) by reflexivity. cbv zeta. unfold searchsorted.
    set (wd := (inject_Z (q_ceil (n / 2)) * four_pi_k)%Q).
    assert (Hb : T 1 0 ((pr - pl) / four_pi_k) ((pr' - pl') / four_pi_k)) by (unfold same_time in *; rewrite Hr, Hl; unfold Qdiv; ring).
    set (be := ((pr - pl) / four_pi_k)%Q) in *. set (be' := ((pr' - pl') / four_pi_k)%Q) in *. clearbody be be'.
    assert (D1 : T 1 k (pl - wd) (pl' - wd)) by (unfold same_time in *; rewrite Hl; ring).
    rewrite (r_find_index (T 1 k) (fun x => Qle_bool (pl - wd) x) (fun x => Qle_bool (pl' - wd) x) _ _ (fun x x' Hx => T_le 1 k _ x _ x' H01 D1 Hx) Hp), (f2_length _ _ _ Hp).
    match goal with |- context [?s - 1 =? 0] => set (st := s - 1); clearbody st end.
    eapply (rb (T 1 0)).
    { destruct (st =? 0); [|constructor; apply T1_refl]. eapply rb; [apply f2_get; exact Hp|]. intros p0 p0' H0. constructor. apply r_orbits; [|exact Hb].
      eapply T_minus; eassumption. }
    intros er er' Her.
    assert (D2 : T 1 k (pr + wd + er * four_pi_k) (pr' + wd + er' * four_pi_k)) by (unfold same_time in *; rewrite Hr, Her; ring).
    rewrite (r_find_index (T 1 k) (fun x => Qle_bool (pr + wd + er * four_pi_k) x) (fun x => Qle_bool (pr' + wd + er' * four_pi_k) x) _ _ (fun x x' Hx => T_le 1 k _ x _ x' H01 D2 Hx) Hp). destruct (find_index _ ph); [constructor; reflexivity|].
    eapply rb; [apply f2_last; exact Hp|]. intros pn pn' Hn.
    assert (De : T 1 0 (additional_orbits n (pn - pr) be) (additional_orbits n (pn' - pr') be')) by (apply r_orbits; [eapply T_minus; eassumption|exact Hb]).
    assert (D3 : T 1 k (pl - wd - additional_orbits n (pn - pr) be * four_pi_k) (pl' - wd - additional_orbits n (pn' - pr') be' * four_pi_k)).
    { unfold same_time in *. rewrite Hl, De. ring. }
    rewrite (r_find_index (T 1 k) (fun x => Qle_bool (pl - wd - additional_orbits n (pn - pr) be * four_pi_k) x) (fun x => Qle_bool (pl' - wd - additional_orbits n (pn' - pr') be' * four_pi_k) x) _ _ (fun x x' Hx => T_le 1 k _ x _ x' H01 D3 Hx) Hp). constructor. reflexivity.
  Qed.
  Lemma ph_any o2 l l' : same_phases o2 l l' -> same_phases true l l'.
  Proof. destruct o2; [trivial|]. cbn. intros ->. exists 0%Q. induction l; constructor; [ring|assumption]. Qed.
  Lemma ph_zslice s e l l' : same_phases (ch_phases og) l l' -> same_phases (ch_phases og) (zslice l s e) (zslice l' s e).
  Proof. destruct (ch_phases og); cbn; [|intros ->; reflexivity]. intros [k H]. exists k. apply f2_zslice. exact H. Qed.
  Definition is_time (r : reference) : bool := match r with TimeRef _ => true | FreqRef _ => false end.
  Lemma r_segments n w w' (ref ref' : reference) : (is_time ref = true \/ secular_scale a b (lib_secular L)) -> WV w w' -> same_reference a b ref ref' ->
    same_res WV (segments (lib_secular L) n w match ref with TimeRef _ => true | FreqRef _ => false end match ref with TimeRef l => l | FreqRef l => l end)
                (segments (lib_secular L) n w' match ref' with TimeRef _ => true | FreqRef _ => false end match ref' with TimeRef l => l | FreqRef l => l end).
  Proof.
    intros HS Hw' Hr. unfold segments. eapply (rb (fun x x' => TT (fst x) (fst x') /\ TT (snd x) (snd x'))).
    { unfold reference_bounds. destruct Hr as [l l' H|l l' H]; [|destruct HS as [HS|HS]; [discriminate HS|]].
      - eapply rb; [apply f2_get; exact H|]. intros x x' Hx. eapply rb; [apply f2_last; exact H|]. intros y y' Hy. constructor. auto.
      - eapply rb; [apply f2_get; exact H|]. intros x x' Hx. eapply rb; [apply r_approx; eassumption|]. intros y y' Hy.
        rewrite (f2_length _ _ _ H). destruct (1 <? length l); [|constructor; auto].
        eapply rb; [apply f2_last; exact H|]. intros z z' Hz. eapply rb; [apply r_approx; eassumption|]. intros u u' Hu. constructor. auto. }
    intros x x' [H1 H2]. unfold phase_bound. destruct (wv_phaseT _ _ Hw') as [k Hp].
    eapply (rb (T 1 k)); [eapply rb; [apply (r_nearest a b); [exact Ha|apply Hw'|exact H1]|]; intros i ? <-; apply f2_get; exact Hp|]. intros pl pl' Hpl.
    eapply (rb (T 1 k)); [eapply rb; [apply (r_nearest a b); [exact Ha|apply Hw'|exact H2]|]; intros i ? <-; apply f2_get; exact Hp|]. intros pr pr' Hpr.
    eapply rb; [apply (r_indices k); eassumption|]. intros se ? <-. constructor. destruct Hw' as [K1 K2 K3 K4]. unfold cut_wave.
    constructor; cbn; [apply f2_zslice; assumption|apply f2_zslice; assumption|apply ph_zslice; assumption|apply f2_zslice; assumption].
  Qed.
  Lemma lg_use_segment level n w w' ref ref' : (is_time ref = true \/ secular_scale a b (lib_secular L)) -> WV w w' -> same_reference a b ref ref' ->
    LG WV (use_segment (lib_secular L) level n w match ref with TimeRef _ => true | FreqRef _ => false end match ref with TimeRef l => l | FreqRef l => l end)
          (use_segment (lib_secular L) level n w' match ref' with TimeRef _ => true | FreqRef _ => false end match ref' with TimeRef l => l | FreqRef l => l end).
  Proof.
    intros HS Hw' Hr. unfold use_segment. destruct n as [n|]; [|apply lg_ret; exact Hw']. destruct (Qeq_bool n 0); [apply lg_ret; exact Hw'|].
    destruct (wv_phaseT _ _ Hw') as [k Hp].
    eapply lgb; [apply lg_lift; apply f2_last; exact Hp|]. intros pn pn' Hn. eapply lgb; [apply lg_lift; apply f2_get; exact Hp|]. intros p0 p0' H0.
    assert (D : T 1 0 ((pn - p0) / (4 * np_pi)) ((pn' - p0') / (4 * np_pi))) by (unfold same_time in *; rewrite Hn, H0; unfold Qdiv; ring).
    rewrite (T_le 1 0 n _ n _ eq_refl (T1_refl n) D).
    destruct (Qle_bool n _); [apply lg_lift; apply r_segments; assumption|].
    eapply lgb; [apply lg_refl|]. intros _ _ _. apply lg_ret. exact Hw'.
  Qed.

  (** ** Residual data *)
  Record RS (r r' : residual) : Prop := { rs1 : LTT (rs_t r) (rs_t r'); rs2 : LW (rs_omega_zeroecc r) (rs_omega_zeroecc r');
    rs3 : LT (amp_unit og) 0 (rs_amp r) (rs_amp r'); rs4 : LW (rs_omega r) (rs_omega r') }.
  Lemma same_1 l : LT 1 0 l l.
  Proof. apply f2_refl. intros x. unfold same_time. ring. Qed.
  Lemma r_residual h h' prec d d' w w' tm tm' g : roots_scale og (lib_sqrt L) -> SH h h' -> SD d d' -> WV w w' -> TT tm tm' ->
    same_res (fun x x' => RS (fst x) (fst x') /\ snd x' = snd x) (compute_residual L h prec d w tm g) (compute_residual L h' prec d' w' tm' g).
  Proof.
    intros Hq Hh Hd Hw' Htm. unfold compute_residual. assert (Hc : (0 < amp_unit og)%Q).
    { unfold roots_scale, amp_unit in *. destruct (ch_amps og); [apply Hq|reflexivity]. }
    eapply rb; [eapply rb; [eapply sd_get; exact Hd|]; intros v v' Hv; eapply r_tz; exact Hv|]. intros tz tz' (b0 & Htz).
    eapply rb; [eapply t_uniform; exact Htz|]. intros _ _ _. destruct Htz as [Htz _].
    eapply rb; [apply (r_gw a b C og kinds Ha); [right; reflexivity|eassumption|eassumption]|]. intros [[az pz] oz] [[az' pz'] oz'] (Haz & _ & Hoz). cbn in Haz, Hoz. apply amps_T in Haz.
    eapply rb; [exact (r_modes a b C og kinds h h' d d' "amplm_zeroecc" Hh Hd)|]. intros am am' Ham. change (same_modes (same_amps (ch_amps og)) am am') in Ham.
    destruct (r_total C og (lib_abs L) (lib_sqrt L) am am' Hq Ham) as (r & Hr & Rt). eapply rb; [exact Rt|]. intros amp amp' Hamp. eapply rb; [apply (r_peak a b0 r); assumption|]. intros pk pk' [Hpk _]. cbv zeta.
    assert (Hsh : LTT (map (fun x => x - fst pk + tm)%Q tz) (map (fun x => x - fst pk' + tm')%Q tz')).
    { eapply f2_map; [|exact Htz]. intros x x' Hx. unfold same_time in *. rewrite Hx, Hpk, Htm. ring. }
    set (s := map _ tz) in *. set (s' := map _ tz') in *. clearbody s s'.
    eapply rb; [apply f2_get; exact Hsh|]. intros s0 s0' Hs0. eapply rb; [apply f2_get; apply Hw'|]. intros t0 t0' Ht0.
    rewrite (T_lt a b t0 s0 t0' s0' Ha Ht0 Hs0). destruct (Qlt_bool t0 s0); [rerr|].
    eapply rb; [apply f2_last; exact Hsh|]. intros sn sn' Hsn. rewrite (T_lt a b sn tm sn' tm' Ha Hsn Htm). destruct (Qlt_bool sn tm); [rerr|].
    assert (H01 : (0 < 1)%Q) by reflexivity.
    eapply rb; [apply (r_extrapolate _ _ (ls_spline _ _ _ HL) a b (amp_unit og)); [exact Ha|exact Hc|apply Hw'|exact Hsh|exact Haz]|]. intros ai ai' Hai.
    rewrite (interpolant_kwargs a b s s' az az' true "spline" (Some g) Ha Hsh).
    set (g1 := match snd (get_interpolant s az true "spline" (Some g)) with Some k => k | None => g end).
    eapply rb; [apply (f2_zip (amp_unit og)); [intros x x' y y' Hx Hy; eapply T_minus; eassumption|apply Hw'|exact Hai]|]. intros ra ra' Hra.
    pose proof Hoz as Hoz'. apply (freqs_T a _ _ Ha0) in Hoz'.
    eapply rb; [apply (r_extrapolate _ _ (ls_spline _ _ _ HL) a b (1 / a)%Q); [exact Ha|exact Hw|apply Hw'|exact Hsh|exact Hoz']|]. intros oi oi' Hoi.
    rewrite (interpolant_kwargs a b s s' oz oz' true "spline" (Some g1) Ha Hsh).
    eapply rb; [apply (f2_zip (1 / a)%Q); [intros x x' y y' Hx Hy; eapply T_minus; eassumption|apply (freqs_T a _ _ Ha0); apply Hw'|exact Hoi]|]. intros ro ro' Hro.
    apply (freqs_T a _ _ Ha0) in Hro. constructor. split; [|reflexivity]. constructor; assumption.
  Qed.

  (** ** The constructor *)
  Record BR (x x' : base) : Prop := {
    br_wave : WV (b_wave x) (b_wave x'); br_tm : TT (b_t_merger x) (b_t_merger x'); br_config : same_config a b (b_config x) (b_config x');
    br_residual : same_option RS (b_residual x) (b_residual x');
    br_amp : T (amp_unit og) 0 (b_amp_merger x) (b_amp_merger x');
    br_rest : (b_dict_keys x', b_extrema_kwargs x', b_fits_kwargs x', b_degrees x', b_refine x') =
              (b_dict_keys x, b_extrema_kwargs x, b_fits_kwargs x, b_degrees x, b_refine x) }.
  Lemma r_reference x x' : same_args a b x x' ->
    same_res (fun r r' => same_reference a b (fst r) (fst r') /\ snd r' = snd r /\ (a_fref x = None -> is_time (fst r) = true)) (reference_of (a_tref x) (a_fref x)) (reference_of (a_tref x') (a_fref x')).
  Proof.
    intros [H1 H2 _]. unfold reference_of. destruct H1 as [|? ? []], H2 as [|? ? []]; try rerr; constructor; (split; [|split; [reflexivity|intros K; first [reflexivity|discriminate K]]]); constructor; try assumption; repeat constructor; assumption.
  Qed.
  Lemma lg_warn level ks : LG eq (warn_unknown level ks) (warn_unknown level ks).
  Proof. apply lg_refl. Qed.
  Theorem wr_init m x x' p : calls_scale a b og kinds L m x -> same_args a b x x' -> WR BR (init L x p) (init L x' p).
  Proof.
    intros HC Hx. pose proof (sa_rest _ _ _ _ Hx) as E. injection E as E1 E2 E3 E4. unfold init. rewrite E1, E2, E3, E4.
    eapply wrb; [apply wr_lift; apply r_reference; exact Hx|]. intros rf rf' (Hrf & Esc & Etime).
    eapply wrb; [apply wr_lift; apply res_refl|]. intros _ _ _.
    eapply wrb; [apply wr_heap; apply (mr_process a b C og kinds Ha); [exact (cs_amps _ _ _ _ _ _ _ HC)|]; destruct (cs_precessing _ _ _ _ _ _ _ HC) as [K|[K _]]; [left|right]; exact K|]. intros pd pd' Hpd.
    pose proof (pr_width _ _ _ _ _ _ _ Hpd) as P2. pose proof (pr_dict _ _ _ _ _ _ _ Hpd) as Hd. cbv zeta.
    eapply wrb; [apply wr_lift; eapply rb; [eapply sd_get; exact Hd|]; intros v v' Hv; eapply r_t; exact Hv|]. intros t t' Ht.
    eapply wrb; [apply wr_lift; eapply t_uniform; exact Ht|]. intros _ _ _. destruct Ht as [Ht _].
    eapply wrb; [apply wr_read; intros; apply (r_gw a b C og kinds Ha); [left; reflexivity|eassumption|eassumption]|]. intros gw gw' (Eg & Hgp & Hg).
    eapply (wrb (fun y y' => SF (fst y) (fst y') /\ snd y' = snd y)).
    { destruct (a_precessing x) eqn:Ep; [destruct (cs_precessing _ _ _ _ _ _ _ HC) as [K|[_ K]]; [congruence|]; apply wr_filter; [exact K|apply Hpd|exact Hd]|]. intros w w' Hh. split; [exact Hh|]. apply lg_ret. cbn. split; [|apply Hh].
      constructor; cbn; first [exact Hg|exact Hgp|exact Eg|congruence]. }
    intros fe fe' [Hfe Efe]. rewrite Efe. eapply wrb; [apply wr_lift; apply res_refl|]. intros ek ? <-.
    eapply wrb; [apply wr_lift; apply res_refl|]. intros n ? <-.
    eapply wrb; [apply wr_log; apply lg_use_segment; [destruct (cs_secular _ _ _ _ _ _ _ HC) as [K|K]; [left; apply Etime; exact K|right; exact K]| |exact Hrf]|].
    { destruct Hfe as [F1 F2 F3 F4]. constructor; cbn; try assumption; apply amps_T; assumption. }
    intros wv wv' Hwv. rewrite P2. eapply wrb; [apply wr_lift; apply res_refl|]. intros op ? <-.
    eapply wrb; [apply wr_read; intros; eapply (r_top a b C og kinds); [eassumption|reflexivity]|]. intros u u' Hu. rewrite (sd_keys _ _ _ _ _ _ _ Hu).
    eapply wrb; [apply wr_log; apply lg_refl|]. intros _ _ _.
    eapply (wrb (fun y y' => same_option RS (fst y) (fst y') /\ snd y' = snd y)).
    { apply wr_read. intros h h' Hh. rewrite !(sd_mem _ _ _ _ _ _ _ _ Hd). destruct (smem _ "amplm_zeroecc" && smem _ "omegalm_zeroecc"); [|constructor; split; [constructor|reflexivity]].
      eapply rb; [apply r_residual; [exact (cs_amps _ _ _ _ _ _ _ HC)|exact Hh|exact Hd|exact Hwv|apply Hpd]|]. intros y y' [Hy1 Hy2]. constructor. split; [constructor; exact Hy1|exact Hy2]. }
    intros rs rs' [Hrs Egs]. apply wr_ret. constructor; cbn.
    - exact Hwv.
    - apply Hpd.
    - constructor; cbn; try (apply (ph_any (ch_phases og)); apply Hwv); try apply Hwv; try assumption.
      + destruct Hrs as [|r r' Hr]; constructor. cbn. split; apply Hr.
      + rewrite Esc, Egs, (sf_flag _ _ _ _ Hfe). split; reflexivity.
    - exact Hrs.
    - apply Hpd.
    - rewrite (sd_keys _ _ _ _ _ _ _ Hd). reflexivity.
  Qed.

  (** ** The object and its extrema *)
  Definition fits_method (m : string) : bool := existsb (String.eqb m) ["AmplitudeFits"; "FrequencyFits"].
  Definition amplitude_method (m : string) : bool := existsb (String.eqb m) ["Amplitude"; "ResidualAmplitude"; "AmplitudeFits"].
  Definition OD (m : string) (l l' : list Q) : Prop :=
    if fits_method m then Forall2 Qeq l l' \/ LW l l' else if amplitude_method m then LT (amp_unit og) 0 l l' else LW l l'.
  Record OR (o o' : object) : Prop := {
    or_base : BR (o_base o) (o_base o'); or_data : OD (o_method o) (o_data o) (o_data o');
    or_rest : (o_method o', o_fits o') = (o_method o, o_fits o) }.
  Lemma r_residual_of x x' : BR x x' -> same_res RS (residual_of x) (residual_of x').
  Proof.
    intros H. pose proof (br_rest _ _ H) as E. injection E as E1 E2 E3 E4 E5. unfold residual_of. rewrite E1. destruct (forallb _ _); [|rerr].
    destruct (br_residual _ _ H); [rerr|constructor; assumption].
  Qed.
  Lemma positive_unit m x : calls_scale a b og kinds L m x -> (0 < amp_unit og)%Q.
  Proof. intros HC. pose proof (cs_amps _ _ _ _ _ _ _ HC) as K. unfold amp_unit. destruct (ch_amps og); [apply K|reflexivity]. Qed.
  Lemma r_ratio k m m' l l' : (0 < k)%Q -> T k 0 m m' -> LT k 0 l l' ->
    same_res (Forall2 Qeq) (if Qeq_bool m 0 then Err NonFinite else Ok (map (fun x => x / m)%Q l)) (if Qeq_bool m' 0 then Err NonFinite else Ok (map (fun x => x / m')%Q l')).
  Proof.
    intros Hk Hm H. rewrite (T_eq0 k m m' Hk Hm). destruct (Qeq_bool m 0) eqn:E; [rerr|]. assert (N : ~ (m == 0)%Q) by (intro K; apply Qeq_bool_iff in K; congruence).
    constructor. eapply f2_map; [|exact H]. intros x x' Hx. unfold same_time in *. rewrite Hx, Hm. field. split; [exact N|lra].
  Qed.
  Theorem wr_build m x x' p : calls_scale a b og kinds L m x -> In m available_methods -> same_args a b x x' -> WR OR (build L m x p) (build L m x' p).
  Proof.
    intros HC Hm Hx. unfold build. eapply wrb; [apply (wr_init m); [exact HC|exact Hx]|]. intros y y' Hy. cbv zeta. clear Hx.
    pose proof (br_rest _ _ Hy) as E. injection E as E1 E2 E3 E4 E5. rewrite E3.
    pose proof (wv_omega _ _ (br_wave _ _ Hy)) as Ho.
    cbn [available_methods In] in Hm. destruct Hm as [<-|[<-|[<-|[<-|[<-|[<-|[]]]]]]]; cbn [String.eqb Ascii.eqb Bool.eqb].
    - apply wr_ret. constructor; cbn; [exact Hy|apply (br_wave _ _ Hy)|reflexivity].
    - apply wr_ret. constructor; cbn; [exact Hy|exact Ho|reflexivity].
    - eapply wrb; [apply wr_lift; apply r_residual_of; exact Hy|]. intros r r' Hr. apply wr_ret. constructor; cbn; [exact Hy|apply Hr|reflexivity].
    - eapply wrb; [apply wr_lift; apply r_residual_of; exact Hy|]. intros r r' Hr. apply wr_ret. constructor; cbn; [exact Hy|apply Hr|reflexivity].
    - eapply wrb; [apply wr_lift; apply res_refl|]. intros fk ? <-.
      eapply (wrb (Forall2 Qeq)); [apply wr_lift; apply (r_ratio (amp_unit og)); [exact (positive_unit _ _ HC)|apply Hy|apply (br_wave _ _ Hy)]|]. intros dt dt' Hdt.
      apply wr_ret. constructor; cbn; [exact Hy|left; exact Hdt|reflexivity].
    - eapply wrb; [apply wr_lift; apply res_refl|]. intros fk ? <-. eapply (wrb LW); [apply wr_lift; constructor; exact Ho|]. intros dt dt' Hdt.
      apply wr_ret. constructor; cbn; [exact Hy|right; exact Hdt|reflexivity].
  Qed.
  Definition free_levels (o : object) : Prop :=
    plain_levels (b_extrema_kwargs (o_base o)) \/ fits_method (o_method o) = true \/
    (amplitude_method (o_method o) = true /\ amp_unit og == 1)%Q \/ (amplitude_method (o_method o) = false /\ a == 1)%Q.
  Lemma find_same o o' : (0 < amp_unit og)%Q -> (fits_method (o_method o) = false \/ fits_scale a b og (lib_fits L)) -> OR o o' -> free_levels o -> forall pc, find_extrema L o' pc = find_extrema L o pc.
  Proof.
    intros Hc HF H Hf pc. pose proof (or_rest _ _ H) as E. injection E as E1 E2. pose proof (br_rest _ _ (or_base _ _ H)) as E. injection E as B1 B2 B3 B4 B5.
    unfold find_extrema. rewrite E1, E2, B2, B5. pose proof (or_data _ _ H) as Hd. unfold OD in Hd. unfold fits_method in *.
    destruct (existsb (String.eqb (o_method o)) ["AmplitudeFits"; "FrequencyFits"]) eqn:F.
    - destruct HF as [K|HF]; [discriminate K|]. apply HF; [apply (or_base _ _ H)|apply (or_base _ _ H)|apply (or_base _ _ H)|exact Hd].
    - set (s := (if pc then 1 else -1)%Q). destruct (amplitude_method (o_method o)) eqn:A.
      + apply (ls_peaks _ _ _ HL (amp_unit og)); [exact Hc| |].
        * eapply f2_map; [|exact Hd]. intros u u' Hu. unfold same_time in *. rewrite Hu. ring.
        * destruct Hf as [K|[K|[[_ K]|[K _]]]]; [right; exact K|unfold fits_method in K; congruence|left; exact K|congruence].
      + apply (freqs_T a _ _ Ha0) in Hd. apply (ls_peaks _ _ _ HL (1 / a)%Q); [exact Hw| |].
        * eapply f2_map; [|exact Hd]. intros u u' Hu. unfold same_time in *. rewrite Hu. ring.
        * destruct Hf as [K|[K|[[K _]|[_ K]]]]; [right; exact K|unfold fits_method in K; congruence|congruence|left; rewrite K; reflexivity].
  Qed.

  (** ** The options behind the object *)
  Lemma read_facts ek width op : read_options ek width = Ok op ->
    (slookup ek "omega_gw_extrema_interpolation_method" = Some (Leaf (LStr "spline")) -> op_interp op = SplineMethod) /\
    ((forall u, slookup ek "extrema_finding_kwargs" = Some (Dict u) ->
        forall k, In k ["height"; "threshold"; "prominence"] -> slookup u k = None \/ slookup u k = Some LNone) -> plain_levels (op_extrema op)).
  Proof.
    intros O. unfold read_options in O. apply bind_ok in O. destruct O as (xk & Ox & O). apply bind_ok in O. destruct O as (im & Oi & O).
    assert (E1 : op_interp op = im /\ op_extrema op = xk).
    { repeat (apply bind_ok in O; destruct O as (? & _ & O)). apply Ok_inj in O. subst op. split; reflexivity. }
    destruct E1 as [-> ->]. clear O. split.
    - intros Hs. rewrite sget_lookup, Hs in Oi. cbn in Oi. apply Ok_inj in Oi. symmetry. exact Oi.
    - clear Oi. intros U. rewrite sget_lookup in Ox. destruct (slookup ek "extrema_finding_kwargs") as [v|]; [|discriminate Ox]. cbn [bind] in Ox.
      apply bind_ok in Ox. destruct Ox as (u & Ou & Ox). apply kwargs_ok in Ox. destruct Ox as [_ ->].
      intros k Hk. rewrite fill_lookup. assert (D : slookup (default_extrema_finding width) k = Some LNone).
      { cbn in Hk. destruct Hk as [<-|[<-|[<-|[]]]]; reflexivity. }
      destruct v as [lf|d].
      + destruct lf; try discriminate Ou. apply Ok_inj in Ou. subst u. exact D.
      + apply Ok_inj in Ou. subst u. destruct (U d eq_refl k Hk) as [-> | ->]; [exact D|reflexivity].
  Qed.
  Lemma extra_facts x pd gw w w1 l fl extra : filter_part L x pd gw w = (w1, (l, Ok (fl, extra))) ->
    forall k, k <> "filter_kwargs" -> slookup match extra with Some u => u | None => [] end k = slookup match wd_extra w with Some u => u | None => [] end k.
  Proof.
    intros F k Hk. apply filter_part_ok in F. destruct F as [(_ & _ & -> & _)|(_ & u & fk & _ & _ & _ & -> & _)]; [reflexivity|].
    rewrite slookup_sset. apply String.eqb_neq in Hk. rewrite Hk. reflexivity.
  Qed.
  Lemma filled_facts (e eu : option kwargs) :
    (forall k, k <> "filter_kwargs" -> slookup match eu with Some u => u | None => [] end k = slookup match e with Some u => u | None => [] end k) ->
    let ek := fill_defaults match eu with Some u => u | None => [] end default_extra in
    (spline_chosen e -> slookup ek "omega_gw_extrema_interpolation_method" = Some (Leaf (LStr "spline"))) /\
    (levels_unset e -> forall u, slookup ek "extrema_finding_kwargs" = Some (Dict u) ->
        forall k, In k ["height"; "threshold"; "prominence"] -> slookup u k = None \/ slookup u k = Some LNone).
  Proof.
    intros X. cbv zeta. split.
    - intros (d & -> & Hs). rewrite fill_lookup, X by discriminate. rewrite Hs. reflexivity.
    - intros U u Hu k Hk. rewrite fill_lookup, X in Hu by discriminate. destruct e as [d|].
      + destruct (slookup d "extrema_finding_kwargs") as [v|] eqn:E.
        * injection Hu as ->. exact (U d u eq_refl E k Hk).
        * injection Hu as <-. left. reflexivity.
      + injection Hu as <-. left. reflexivity.
  Qed.
  Lemma built_options m x p (w w1 : world C) l o : build L m x p w = (w1, (l, Ok o)) ->
    (spline_chosen (wd_extra w) -> c_interp (b_config (o_base o)) = SplineMethod) /\
    (levels_unset (wd_extra w) -> plain_levels (b_extrema_kwargs (o_base o))).
  Proof.
    intros H. apply build_method in H. destruct H as (_ & w2 & l3 & H & _). apply init_ok in H.
    destruct H as (rf & pd & t & gw & fl & extra & ek & n & wv & op & user & rs & m1 & m2 & h' & _ & _ & _ & _ & _ & _ & F & _ & K & _ & _ & O & _ & _ & _ & -> & _).
    cbn [base_of b_config c_interp b_extrema_kwargs]. apply kwargs_ok in K. destruct K as [_ ->].
    destruct (read_facts _ _ _ O) as [R1 R2]. destruct (filled_facts _ _ (extra_facts _ _ _ _ _ _ _ _ F)) as [F1 F2].
    split; intros K; [apply R1; apply F1; exact K|apply R2; apply F2; exact K].
  Qed.
  Lemma find_only level cf (f g : bool -> res (list nat)) : (forall pc, g pc = f pc) ->
    measure_ecc (lib_ecc L) (lib_zero L) (lib_negative L) g (lib_spline L) (lib_pchip L) (lib_rational L) (lib_slope L) level cf =
    measure_ecc (lib_ecc L) (lib_zero L) (lib_negative L) f (lib_spline L) (lib_pchip L) (lib_rational L) (lib_slope L) level cf.
  Proof. intros H. unfold measure_ecc. rewrite !H. reflexivity. Qed.

  Theorem call_rel m x x' p (w w' : world C) : calls_scale a b og kinds L m x -> same_args a b x x' -> same_world a b og kinds w w' ->
    (spline_chosen (wd_extra w) \/ fit_affine a b (lib_rational L)) -> free_search a og m (wd_extra w) ->
    let r := measure_eccentricity L m x p w in let r' := measure_eccentricity L m x' p w' in
    same_world a b og kinds (fst r) (fst r') /\ fst (snd r') = fst (snd r) /\ same_res (same_return a b) (snd (snd r)) (snd (snd r')).
  Proof.
    intros HC Hx Hh Hi Hf. cbv zeta. unfold measure_eccentricity. destruct (existsb (String.eqb m) available_methods) eqn:Hm.
    2:{ cbn. split; [exact Hh|]. split; [reflexivity|rerr]. }
    apply existsb_exists in Hm. destruct Hm as (y & Hm & Ey). apply String.eqb_eq in Ey. subst y.
    pose proof (wr_build m x x' p HC Hm Hx w w' Hh) as B. unfold wbind.
    destruct (build L m x p w) as [w1 [l1 r1]] eqn:E1, (build L m x' p w') as [w1' [l1' r1']]. cbn [fst snd] in B |- *.
    destruct B as (B1 & B2 & B3). cbn [fst snd] in B2, B3. subst l1'. destruct B3 as [o o' Ho|e e' He].
    2:{ cbn. split; [exact B1|]. split; [reflexivity|constructor; exact He]. }
    destruct (built_options _ _ _ _ _ _ _ E1) as [O1 O2]. pose proof (build_method _ _ _ _ _ _ _ _ E1) as (Om & _).
    assert (Fl : free_levels o).
    { unfold free_levels. rewrite Om. destruct Hf as [K|[K|[[K1 K2]|[[K K1]|[K K1]]]]]; [left; apply O2; exact K| | | |].
      - right; left. cbn in K. destruct K as [<-|[<-|[]]]; reflexivity.
      - right; right. destruct (amplitude_method m); [left|right]; split; first [reflexivity|assumption].
      - right; right; left. cbn in K. destruct K as [<-|[<-|[]]]; split; first [reflexivity|assumption].
      - right; right; right. cbn in K. destruct K as [<-|[<-|[]]]; split; first [reflexivity|assumption]. }
    assert (HF : fits_method (o_method o) = false \/ fits_scale a b og (lib_fits L)).
    { destruct (cs_fits _ _ _ _ _ _ _ HC) as [K|K]; [left|right; exact K]. rewrite Om. unfold fits_method. destruct (existsb _ _) eqn:F; [|reflexivity].
      apply existsb_exists in F. destruct F as (y & Fy & Ey). apply String.eqb_eq in Ey. subst y. contradiction. }
    pose proof (find_same o o' (positive_unit _ _ HC) HF Ho Fl) as Ef. pose proof (sa_rest _ _ _ _ Hx) as Ea. injection Ea as A1 A2 A3 A4. rewrite A4.
    assert (Er : c_interp (b_config (o_base o)) = SplineMethod \/ fit_affine a b (lib_rational L)) by (destruct Hi as [K|K]; [left; apply O1; exact K|right; exact K]).
    pose proof (br_rest _ _ (or_base _ _ Ho)) as Eb. injection Eb as B4 B6 B7 B8 B9.
    pose proof (measure_rel a b Ha (lib_ecc L) (lib_zero L) (lib_negative L) (find_extrema L o) (lib_spline L) (lib_pchip L) (lib_rational L) (lib_slope L)
      (ls_spline _ _ _ HL) (ls_ecc _ _ _ HL) (ls_slope _ _ _ HL) _ _ (br_config _ _ (or_base _ _ Ho)) Er (a_level x) _ _ (fresh_SR a b (b_degrees (o_base o)))) as R.
    unfold measure_object. rewrite B8. rewrite (find_only (a_level x) (b_config (o_base o')) _ _ Ef).
    destruct (measure_ecc _ _ _ _ _ _ _ _ _ (b_config (o_base o)) _) as [l2 [s r]].
    destruct (measure_ecc _ _ _ _ _ _ _ _ _ (b_config (o_base o')) _) as [l2' [s' r']].
    cbn [fst snd] in R |- *. destruct R as (-> & _ & R). unfold wlog. cbn [fst snd]. destruct R as [q q' Rq|e e' He]; cbn [fst snd].
    2:{ split; [exact B1|]. split; [reflexivity|constructor; exact He]. }
    cbn [wret lret fst snd]. split; [exact B1|]. split; [reflexivity|]. constructor.
    destruct Rq as [Q1 Q2 Q3 Q4]. unfold same_return, return_dict.
    assert (G : forall k e e', same_entry (V := V) a b (k, e) (k, e') -> forall d d', Forall2 (same_entry a b) d d' -> Forall2 (same_entry a b) (sset d k e) (sset d' k e')).
    { intros k e e' He d d' Hd. unfold sset. induction Hd as [|[k1 u] [k1' u'] d d' [K1 K2] Hd IH]; cbn; [constructor; [exact He|constructor]|].
      cbn in K1. subst k1'. destruct (String.eqb_spec k k1) as [->|]; constructor; try assumption. split; [reflexivity|exact K2]. }
    cbn [dupdate]. apply (G "gwecc_object"); [split; [reflexivity|exact I]|].
    repeat apply Forall2_app.
    - constructor; [split; [reflexivity|cbn; exact Q1]|]. constructor; [split; [reflexivity|cbn; exact Q2]|constructor].
    - destruct Q3; constructor; [split; [reflexivity|cbn; assumption]|constructor].
    - destruct Q4; constructor; [split; [reflexivity|cbn; assumption]|constructor].
  Qed.
End Call.
