(** Proofs: inputs on which the filter fails, and what the measuring object takes from it. *)
From Coq Require Import Lia Lqa Sorted.
From Verif Require Import Base BaseLemmas UtilsModel UtilsSpec ExtremaLemmas MeasureModel AverageLemmas SegmentModel SegmentLemmas DataModel DataSpec DataLemmas
  DataLemmas2 InitModel InitSpec InitLemmas InitOptions OptionSpec OptionLemmas FitsSpec FilterModel FilterSpec FilterLemmas FilterCombine FilterSweep FilterApply FilterCheck.
Open Scope string_scope.
Open Scope nat_scope.

(** A zero of the difference between two nonzero values is two crossings. *)
Lemma touching x y i a b c a' b' c' : nth_error x i = Some a -> nth_error x (S i) = Some b -> nth_error x (S (S i)) = Some c ->
  nth_error y i = Some a' -> nth_error y (S i) = Some b' -> nth_error y (S (S i)) = Some c' ->
  ~ (a == a')%Q -> (b == b')%Q -> ~ (c == c')%Q -> crosses x y i /\ crosses x y (S i).
Proof.
  intros A B C A' B' C' N1 E N2. split; [exists a, b, a', b'|exists b, c, b', c']; repeat (split; [assumption|]); unfold same_sign; intros H.
  - assert (~ (a - a' == 0))%Q by (intros Z; apply N1; lra). destruct H as [[? ?]|[[? ?]|[? ?]]]; lra.
  - assert (~ (c - c' == 0))%Q by (intros Z; apply N2; lra). destruct H as [[? ?]|[[? ?]|[? ?]]]; lra.
Qed.
(** Curves that agree do not cross. *)
Lemma agree_no_crossing x y i : Forall2 Qeq x y -> ~ crosses x y i.
Proof.
  intros E (a & b & c & d & A & B & C & D & N). apply N. right; left.
  assert (G : forall k u v, nth_error x k = Some u -> nth_error y k = Some v -> (u == v)%Q).
  { clear -E. intros k u v. revert k. induction E as [|p q x y P E IH]; intros [|k] U V; try discriminate; cbn in *; [|eauto].
    apply Some_inj in U, V. now subst. }
  assert (X := G i a c A C). assert (Y := G (S i) b d B D). split; lra.
Qed.

Lemma documented_same k : same_option (slookup default_filter k) (slookup documented_filter k).
Proof.
  unfold slookup. cbn [default_filter documented_filter dlookup]. repeat (destruct (String.eqb k _); [cbn; (reflexivity || (unfold Qeq; cbn; lia))|]). reflexivity.
Qed.
Lemma forall2_length {A B} (R : A -> B -> Prop) x y : Forall2 R x y -> length x = length y.
Proof. induction 1; cbn; congruence. Qed.

Section Finds.
  Variable F : fourier.

  (** With a zero taper the mask divides by zero if the cutoff is a frequency of the spectrum, which it is unless no frequency
      lies between f_ecc and f_spin. *)
  Lemma taper_zero b o t_mid s : increasing (ob_t b) -> length (ob_data b) = length (ob_t b) -> filter_segment F b o t_mid = Ok s ->
    (k_taper o == 0)%Q -> none_within (sg_freqs s) (sg_ecc s) (sg_spin s).
  Proof.
    intros I L H Z. destruct (segment_ok F b o t_mid s I L H) as (j & trend & _ & _ & _ & _ & _ & _ & _ & _ & _ & _ & _ & EF & mask & z & EM & _).
    apply fcut_ok in EF. destruct EF as (_ & _ & [(i & a & Fi & _ & _)|[_ N]]); [exfalso|exact N].
    unfold make_lowpass_mask in EM. cbv zeta in EM.
    assert (X : Qeq_bool (sg_cutoff s * (1 + k_taper o) - sg_cutoff s * (1 - k_taper o)) 0 = true) by (apply Qeq_bool_iff; rewrite Z; ring).
    rewrite X in EM. cbn [andb] in EM. destruct (existsb _ _) eqn:E in EM; [discriminate|].
    assert (E' : existsb (fun f => Qle_bool (sg_cutoff s * (1 - k_taper o)) f && Qle_bool f (sg_cutoff s * (1 + k_taper o))) (sg_freqs s) = true); [|congruence].
    apply existsb_exists. exists (sg_cutoff s). split; [eapply nth_error_In; exact Fi|]. apply andb_true_intro. split; apply Qle_bool_iff; rewrite Z; lra.
  Qed.
  (** The data must be padded. *)
  Lemma padding_needed fuel b o y l : increasing (ob_t b) -> length (ob_data b) = length (ob_t b) -> 1 < length (ob_t b) ->
    apply_filter F fuel b o = Ok (y, l) -> (0 < k_pad o)%Z.
  Proof.
    intros I L N H. destruct (applied F b o I L fuel y l H) as (t0 & tn & cs & js & T0 & Tn & (C0 & _) & Lc & Lj & Hs & _).
    destruct cs as [|c cs]; [exfalso; specialize (C0 eq_refl); assert (t0 < tn)%Q by (apply (I 0 (length (ob_t b) - 1)); auto; lia); lra|].
    destruct l as [|s l]; [discriminate|]. destruct js as [|j js]; [discriminate|].
    destruct (Hs 0 c s j eq_refl eq_refl eq_refl) as (_ & _ & E). destruct (segment_ok F b o c s I L E) as (j' & trend & X). decompose [and] X. assumption.
  Qed.

  Context {C : Type}.
  Implicit Types d : sdict (dval C).
  Lemma array_same h d k m a b : array_of h d k m a -> array_of h d k m b -> a = b.
  Proof.
    intros (v & V & [(ms & -> & A)|(q & ms & -> & Q1 & A)]) (v' & V' & [(ms' & -> & B)|(q' & ms' & -> & Q2 & B)]); try congruence.
  Qed.
  Lemma array_copied h d k m a : array_of h d k m a -> array_of [] (deepcopy C h d) k m a.
  Proof.
    intros (v & V & H). unfold array_of. rewrite slookup_deepcopy, V. cbn [option_map].
    destruct H as [(ms & -> & A)|(q & ms & -> & Q1 & A)]; eexists; (split; [reflexivity|]); left; cbn [deep_val]; [eauto|rewrite Q1; eauto].
  Qed.

  (** what a returned dictionary says about the data: curves of the type looked at do cross, before the merger *)
  Lemma verdict_needs fuel d tag given kw w r : check_and_filter F fuel d tag given kw = (w, Ok r) -> forall amp, exists chk x y t tm i,
    array_of [] d (type_name chk ++ "lm" ++ tag) (2, 2)%Z x /\ array_of [] d (type_name chk ++ "lm" ++ tag) (2, -2)%Z y /\
    selects kw "data_type_for_filter_requirement_check" amp chk /\ crosses x (mirrored chk y) i /\
    times_of d t /\ merger_time d tag t given tm /\ forall s, In s t -> (s < tm)%Q.
  Proof.
    intros H amp. destruct (filter_result F fuel d tag given kw w r H) as (o & ba & bo & _ & _ & _ & Eo & Ma & Mo & _).
    assert (X : exists b, snd (make_filter F d tag given o amp) = Ok b) by (destruct amp; eauto). destruct X as (b & Mb).
    destruct (made F d tag given kw o amp b Eo Mb) as (_ & chk & fsp & x & y & u & v & SC & _ & _ & TT & _ & MT & X & Y & CF & _).
    destruct CF as (trend & mr & ma & BM & _ & (idx & tc & ca & cb & t0 & t1 & re & as' & (S1 & S2 & S3 & S4) & _ & _ & L2 & _) & _).
    destruct idx as [|i idx]; [cbn in S3; lia|]. exists chk, x, y, (ob_t b), (ob_t_merger b), i.
    repeat (split; [assumption|]). split; [apply S2; now left|]. auto.
  Qed.
  Lemma symmetric_fails fuel d given kw w r : reflection_symmetric [] d -> check_and_filter F fuel d "" given kw <> (w, Ok r).
  Proof.
    intros (a & a' & p & p' & f & f' & A & A' & E1 & P & P' & E2 & G & G' & E3) H.
    destruct (verdict_needs fuel d "" given kw w r H true) as (chk & x & y & t & tm & i & X & Y & _ & CR & _).
    revert CR. apply agree_no_crossing. unfold mirrored. destruct chk; cbn in X, Y.
    - assert (x = a) by (eapply array_same; eauto). assert (y = a') by (eapply array_same; eauto). subst.
      clear -E1. induction E1 as [|u v a a' H E IH]; constructor; [rewrite H; ring|exact IH].
    - assert (x = f) by (eapply array_same; eauto). assert (y = f') by (eapply array_same; eauto). subst.
      clear -E3. induction E3 as [|u v a a' H E IH]; constructor; [rewrite H; ring|exact IH].
  Qed.
  (** the exception raised by the check *)
  Lemma agree_check t x y tm amp thr trend : Forall2 Qeq x (mirrored amp y) -> length t = length x -> (forall s, In s t -> (s < tm)%Q) ->
    fo_trend F amp tm t x = Ok trend -> check_filter_requirement F t x y tm amp thr = Err ValueError.
  Proof.
    intros E L B T. assert (Ly : length x = length y) by (rewrite (forall2_length _ _ _ E); apply map_length).
    unfold check_filter_requirement, pn_fit, zip_with. rewrite <- Ly, Nat.eqb_refl. cbn [bind].
    assert (X : existsb (fun s => Qle_bool tm s) t = false).
    { destruct (existsb _ t) eqn:K; [|reflexivity]. apply existsb_exists in K. destruct K as (s & Hs & K). apply Qle_bool_iff in K. specialize (B s Hs). lra. }
    rewrite X, T. cbn [bind]. rewrite map_length, L, Nat.eqb_refl. cbn [bind]. change (map (fun b => combination amp * b)%Q y) with (mirrored amp y).
    rewrite (crossings_few t x (mirrored amp y)); [reflexivity|exact (forall2_length _ _ _ E)|]. intros i j Hi. now apply agree_no_crossing in Hi.
  Qed.
  Lemma merged_check t x y tm amp thr : length x = length y -> (exists s, In s t /\ (tm <= s)%Q) -> check_filter_requirement F t x y tm amp thr = Err ValueError.
  Proof.
    intros L (s & Hs & G). unfold check_filter_requirement, pn_fit, zip_with. rewrite L, Nat.eqb_refl. cbn [bind].
    assert (X : existsb (fun s => Qle_bool tm s) t = true) by (apply existsb_exists; exists s; split; [exact Hs|now apply Qle_bool_iff]). now rewrite X.
  Qed.

  (** ** the measuring object *)
  Variables (V : Type) (L : library C V) (fuel : nat).
  Hypothesis LF : lib_filter L = spin_filter F fuel.
  Definition filtered_array (r : sdict fentry) (k : string) (a : list Q) : Prop := slookup r k = Some (FArr a).
  Lemma measured_filter m a p w w' l (d : sdict (entry V)) : a_precessing a = true -> measure_eccentricity L m a p w = (w', (l, Ok d)) ->
    exists h' l1 pd t fk l2 r o st A P O,
      process L a p (wd_heap w) = (h', (l1, Ok pd)) /\ times_of (p_dict C pd) t /\
      slookup d "gwecc_object" = Some (EObject o st) /\
      (exists u, given_filter (wd_extra w) u /\ completed_filter u fk) /\
      check_and_filter F fuel (deepcopy C h' (p_dict C pd)) "" (Some (p_t_merger C pd)) fk = (l2, Ok r) /\
      slookup r "amp_gw" = Some (FArr A) /\ slookup r "phase_gw" = Some (FArr P) /\ slookup r "omega_gw" = Some (FArr O) /\
      (c_filtered (b_config (o_base o)) = true <-> slookup r "omega_gw_filtered" <> Some FNone) /\
      (c_use_only (b_config (o_base o)) = false -> b_wave (o_base o) = {| w_t := t; w_amp := A; w_phase := P; w_omega := O |}).
  Proof.
    intros HP H. apply measure_ok in H. destruct H as (_ & o & st & r & l1 & l2 & HB & _ & _ & _ & ->).
    apply build_method in HB. destruct HB as (_ & w1 & l3 & HI & ->). apply init_ok in HI.
    destruct HI as (rf & pd & t & gw & fl & extra & ek & n & wv & op & user & rs & l4 & l5 & h' & _ & _ & PR & TT & _ & _ & FP & HH & _ & EN & EW & _ & _ & _ & _ & EB & _).
    apply filter_part_ok in FP. destruct FP as [(HP' & _)|(_ & u & fk & HU & HK & HF & _ & _ & _)]; [congruence|]. cbn [wd_heap wd_extra] in *.
    rewrite LF in HF. apply (f_equal snd) in HF. cbn [snd] in HF. unfold spin_filter in HF. apply lbind_ok in HF. destruct HF as (res & ER & HF).
    cbn [lret snd] in HF. apply Ok_inj in HF.
    destruct (check_and_filter F fuel (deepcopy C h' (p_dict C pd)) "" (Some (p_t_merger C pd)) fk) as [l6 r6] eqn:EC. cbn [snd] in ER. subst r6.
    destruct (filter_result F fuel _ "" _ fk l6 res EC) as (oo & ba & bo & ra & ro & pho & _ & _ & _ & (OA0 & OA) & (OO0 & OO) & _ & _ & PH0 & PH & _).
    assert (XA : exists A, slookup res "amp_gw" = Some (FArr A)) by (destruct ra as [[? ?]|]; cbn in OA; destruct OA as [? _]; eauto).
    assert (XO : exists O, slookup res "omega_gw" = Some (FArr O)) by (destruct ro as [[? ?]|]; cbn in OO; destruct OO as [? _]; eauto).
    assert (XP : exists P, slookup res "phase_gw" = Some (FArr P)).
    { destruct ro as [[? ?]|]; cbn in PH; [destruct PH as (? & ? & ? & q & _ & _ & _ & _ & _ & ?)|destruct PH as (_ & ?)]; eauto. }
    assert (XF : fl_omega_filtered fl = true <-> slookup res "omega_gw_filtered" <> Some FNone).
    { subst fl. cbn. destruct ro as [[y sg]|]; cbn in OO; destruct OO as (_ & -> & _); split; congruence. }
    destruct XA as (A & XA), XO as (O & XO), XP as (P & XP).
    exists h', l4, pd, t, fk, l6, res, o, st, A, P, O. repeat (split; [assumption|]).
    split. { unfold return_dict. destruct (r_tref_out r), (r_fref_out r); reflexivity. }
    split.
    { exists u. split.
      - unfold given_filter. destruct (wd_extra w) as [e|]; [|exact HU]. destruct (slookup e "filter_kwargs") as [[[]|]|]; exact HU.
      - intros k. assert (HC := complete_ok _ _ _ HK k). destruct (slookup u k) as [v|]; [exact HC|]. rewrite HC. apply documented_same. }
    repeat (split; [assumption|]).
    assert (CF : c_filtered (b_config (o_base o)) = fl_omega_filtered fl) by (rewrite EB; reflexivity). rewrite CF.
    split; [exact XF|]. rewrite EB. cbn [base_of b_config c_use_only b_wave]. intros CU.
    assert (wv = {| w_t := t; w_amp := fl_amp fl; w_phase := fl_phase fl; w_omega := fl_omega fl |}).
    { unfold use_segment in EW. destruct n as [q|]; [destruct (Qeq_bool q 0); [|discriminate]|]; cbn in EW; apply Ok_inj in EW; auto. }
    subst wv fl. cbn [fl_amp fl_phase fl_omega]. now rewrite XA, XP, XO.
  Qed.
  (** A precessing measurement is never successful on reflection-symmetric data or on data that reaches the merger. *)
  Lemma measured_needs m a p w w' l (d : sdict (entry V)) : a_precessing a = true -> measure_eccentricity L m a p w = (w', (l, Ok d)) ->
    exists h' l1 pd t, process L a p (wd_heap w) = (h', (l1, Ok pd)) /\ times_of (p_dict C pd) t /\
      ~ reflection_symmetric h' (p_dict C pd) /\ (forall s, In s t -> (s < p_t_merger C pd)%Q).
  Proof.
    intros HP H. destruct (measured_filter m a p w w' l d HP H) as (h' & l1 & pd & t & fk & l2 & r & o & st & A & P & O & PR & TT & _ & _ & EC & _).
    exists h', l1, pd, t. split; [exact PR|]. split; [exact TT|]. split.
    - intros (u & u' & v & v' & x & x' & X1 & X2 & X3 & X4 & X5 & X6 & X7 & X8 & X9). eapply symmetric_fails; [|exact EC].
      exists u, u', v, v', x, x'. repeat split; try assumption; now apply array_copied.
    - destruct (verdict_needs fuel _ "" _ fk l2 r EC true) as (chk & x & y & t' & tm & i & _ & _ & _ & _ & T' & MT & B). cbn in MT. subst tm.
      unfold times_of in T', TT. rewrite slookup_deepcopy, TT in T'. cbn in T'. apply Some_inj in T'. inversion T'; subst t'. exact B.
  Qed.
End Finds.
