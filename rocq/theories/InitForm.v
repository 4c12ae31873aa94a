(** Proof that a waveform may be given as complex modes or as amplitudes and phases. *)
From Verif Require Import Base BaseLemmas UtilsModel UtilsSpec UtilsLemmas ExtremaModel RationalModel MeasureModel MeasureSpec LevelLemmas
  SegmentModel SegmentSpec SegmentLemmas DataModel DataSpec DataLemmas DataLemmas2 InitModel InitSpec InitLemmas InitOptions InitSame InitKeys InitZeroecc
  ExtraSpec InitExtra FormSpec.
Open Scope string_scope.
Open Scope nat_scope.

Section S.
  Context {C V : Type} (L : library C V) (p : nat).
  Notation heap := (heap C).
  Notation dval := (dval C).
  Notation abs := (lib_abs L). Notation phase := (lib_phase L).
  Notation absm := (map (fun kc => (fst kc, lib_abs L (snd kc)))).
  Notation phasem := (map (fun kc => (fst kc, lib_phase L (snd kc)))).
  Notation reading := (read_waveform C (lib_abs L) (lib_phase L) (lib_polar L) (lib_rotate L) (lib_sqrt L)).

  Lemma no_key (d : sdict dval) k : ~ has d k -> slookup d k = None.
  Proof. apply (proj2 (slookup_none d k)). Qed.
  Lemma complex_read h d k m : complex_modes h d k m -> exists v, slookup d k = Some v /\ cplx_of C h v = Ok m.
  Proof. intros [H|(q & H & E)]; eexists; (split; [exact H|]); cbn; [reflexivity|now rewrite E]. Qed.
  Lemma real_read (h : heap) d k m : real_modes_are h d k m -> exists v, slookup d k = Some v /\ real_of C h v = Ok m.
  Proof. intros [H|(q & H & E)]; eexists; (split; [exact H|]); cbn; [reflexivity|now rewrite E]. Qed.
  Lemma complex_ampl h d t m : as_complex h d t m -> amplm_for C abs h d t = Ok (absm m) /\ phaselm_for C phase h d t = Ok (phasem m).
  Proof.
    intros (A & N1 & N2). apply complex_read in A. destruct A as (v & A & B). unfold amplm_for, phaselm_for.
    rewrite (no_key _ _ N1), (no_key _ _ N2), A, B. auto.
  Qed.
  Lemma polar_ampl h d t m : as_polar L h d t m -> amplm_for C abs h d t = Ok (absm m) /\ phaselm_for C phase h d t = Ok (phasem m).
  Proof.
    intros (A & B & _). apply real_read in A, B. destruct A as (v & A & A2), B as (u & B & B2). unfold amplm_for, phaselm_for. now rewrite A, B, A2, B2.
  Qed.
  Lemma form_ampl h h2 d d2 t : hany p h h2 -> same_or_other_form L h h2 d d2 t ->
    amplm_for C abs h d t = amplm_for C abs h2 d2 t /\ phaselm_for C phase h d t = phaselm_for C phase h2 d2 t.
  Proof.
    intros H [S|(m & [[A B]|[A B]])].
    - unfold amplm_for, phaselm_for. rewrite <- !S by (cbn; auto). split.
      + destruct (slookup d ("amplm" ++ t)); [now apply (real_same p)|]. destruct (slookup d ("hlm" ++ t)); [|reflexivity]. now rewrite (cplx_same p h h2 _ H).
      + destruct (slookup d ("phaselm" ++ t)); [now apply (real_same p)|]. destruct (slookup d ("hlm" ++ t)); [|reflexivity]. now rewrite (cplx_same p h h2 _ H).
    - destruct (complex_ampl _ _ _ _ A) as [-> ->], (polar_ampl _ _ _ _ B) as [-> ->]. auto.
    - destruct (polar_ampl _ _ _ _ A) as [-> ->], (complex_ampl _ _ _ _ B) as [-> ->]. auto.
  Qed.
  (** The keys that the check of the representation looks at. *)
  Lemma complex_keys (h : heap) d t m : as_complex h d t m -> smem d ("hlm" ++ t) = true /\ smem d ("amplm" ++ t) = false /\ smem d ("phaselm" ++ t) = false.
  Proof.
    intros (A & N1 & N2). apply complex_read in A. destruct A as (v & A & _). rewrite !smem_lookup, A, (no_key _ _ N1), (no_key _ _ N2). auto.
  Qed.
  Lemma polar_keys h d t m : as_polar L h d t m -> smem d ("hlm" ++ t) = false /\ smem d ("amplm" ++ t) = true /\ smem d ("phaselm" ++ t) = true.
  Proof.
    intros (A & B & N). apply real_read in A, B. destruct A as (v & A & _), B as (u & B & _). rewrite !smem_lookup, A, B, (no_key _ _ N). auto.
  Qed.
  Lemma form_check h h2 d d2 : same_or_other_form L h h2 d d2 "" -> same_or_other_form L h h2 d d2 "_zeroecc" -> check_representation C d = check_representation C d2.
  Proof.
    intros A B. unfold check_representation.
    assert (K : forall t, same_or_other_form L h h2 d d2 t ->
      smem d ("hlm" ++ t) && (smem d ("amplm" ++ t) || smem d ("phaselm" ++ t)) = smem d2 ("hlm" ++ t) && (smem d2 ("amplm" ++ t) || smem d2 ("phaselm" ++ t)) /\
      negb (smem d ("hlm" ++ t)) && (negb (smem d ("amplm" ++ t)) || negb (smem d ("phaselm" ++ t))) =
      negb (smem d2 ("hlm" ++ t)) && (negb (smem d2 ("amplm" ++ t)) || negb (smem d2 ("phaselm" ++ t)))).
    { intros t [S|(m & [[X Y]|[X Y]])].
      - rewrite !smem_lookup, <- !S by (cbn; auto). auto.
      - apply complex_keys in X. apply polar_keys in Y. destruct X as (-> & -> & ->), Y as (-> & -> & ->). auto.
      - apply polar_keys in X. apply complex_keys in Y. destruct X as (-> & -> & ->), Y as (-> & -> & ->). auto. }
    destruct (K "" A) as [K1 K2], (K "_zeroecc" B) as [K3 _]. cbn [String.append] in K1, K2, K3. now rewrite K1, K2, K3.
  Qed.
  Lemma form_apo h h2 d d2 : hany p h h2 -> same_at other_keys d d2 -> same_or_other_form L h h2 d d2 "" -> same_or_other_form L h h2 d d2 "_zeroecc" ->
    get_amp_phase_omega_data C abs phase h d = get_amp_phase_omega_data C abs phase h2 d2.
  Proof.
    intros H D A B. unfold get_amp_phase_omega_data, get_amplm_from_dataDict, get_phaselm_from_dataDict.
    destruct (form_ampl _ _ _ _ _ H A) as [-> ->], (form_ampl _ _ _ _ _ H B) as [-> ->]. rewrite !(sget_lookup d), !(sget_lookup d2), <- !D by (cbn; auto).
    match goal with |- bind ?x _ = bind ?x _ => destruct x as [a|]; [cbn [bind]|reflexivity] end.
    match goal with |- bind ?x _ = bind ?x _ => destruct x as [q|]; [cbn [bind]|reflexivity] end. cbv zeta.
    destruct (sget (a ++ q)%list "phaselm") as [v|]; [cbn [bind]|reflexivity]. rewrite (real_same p h h2 v H).
    destruct (real_of C h2 v) as [ph|]; [cbn [bind]|reflexivity].
    match goal with |- bind ?x _ = bind ?x _ => destruct x; [cbn [bind]|reflexivity] end.
    destruct (slookup d "omegalm_zeroecc"); [reflexivity|]. destruct (slookup (a ++ q)%list "phaselm_zeroecc") as [pv|]; [|reflexivity].
    destruct (slookup d "t_zeroecc"); [|reflexivity]. now rewrite (real_same p h h2 pv H).
  Qed.
  Lemma forms_any h h2 : other_forms L p h h2 -> hany p h h2.
  Proof. intros [H (d & d2 & A & B & _)]. split; [exact H|]. exists d, d2. auto. Qed.

  (** ** without the change of frame *)
  Definition forms_of (d d2 : sdict dval) (h h2 : heap) : Prop := hany p h h2 /\ is_dict h p d /\ is_dict h2 p d2 /\ same_at other_keys d d2 /\
    same_or_other_form L h h2 d d2 "" /\ same_or_other_form L h h2 d d2 "_zeroecc".
  Lemma dict_sim (d d2 : sdict dval) (P : hpair) : (forall h h2, P h h2 -> is_dict h p d /\ is_dict h2 p d2) ->
    msim P P (fun x y => x = d /\ y = d2) (mread C (fun h => top_of C h (Caller C p))) (mread C (fun h => top_of C h (Caller C p))).
  Proof. intros H. apply msim_read. intros h h2 Hp. destruct (H h h2 Hp) as [A B]. cbn. unfold is_dict in *. rewrite A, B. auto. Qed.
  Lemma check_sim (d d2 : sdict dval) h0 h02 : forms_of d d2 h0 h02 -> check_representation C d = check_representation C d2.
  Proof. intros (_ & _ & _ & _ & A & B). eapply form_check; eauto. Qed.
  Lemma plain_read level b frame d d2 : b && String.eqb frame "inertial" = false ->
    msim (forms_of d d2) (forms_of d d2) eq (reading level b frame p) (reading level b frame p).
  Proof.
    intros F h0 h02 H0. pose proof (check_sim _ _ _ _ H0) as K. revert h0 h02 H0.
    change (msim (forms_of d d2) (forms_of d d2) eq (reading level b frame p) (reading level b frame p)).
    unfold read_waveform. rewrite F. eapply msim_seq; [apply (dict_sim d d2); intros h h2 (_ & A & B & _); auto|]. intros x y [-> ->]. rewrite K.
    eapply msim_seq; [apply msim_lift|]. intros _ _ _. eapply (msim_seq _ (fun x y => x = d /\ y = d2)); [apply msim_ret; auto|]. intros x y [-> ->].
    intros h0 h02 H0. pose proof (proj1 (proj2 (proj2 (proj2 H0)))) as D. revert h0 h02 H0.
    match goal with |- forall h0 h02, forms_of d d2 h0 h02 -> forms_of d d2 (fst (?m h0)) (fst (?m2 h02)) /\ _ => change (msim (forms_of d d2) (forms_of d d2) eq m m2) end.
    rewrite <- !D by (cbn; auto).
    eapply msim_seq; [apply msim_lift|]. intros t ? <-.
    eapply msim_seq; [apply msim_same; intros h h2 (A & _ & _ & B & E & G); now apply form_apo|]. intros apo ? <-. cbv zeta.
    apply msim_same. intros h h2 (Hp & _). rewrite (modes_same p h h2 _ _ Hp), (gw_same p h h2 _ _ _ Hp). reflexivity.
  Qed.
  Lemma msim_weak {A B} (P P1 P' P1' : @hpair C) (R : A -> B -> Prop) m m2 : (forall h h2, P1 h h2 -> P h h2) -> (forall h h2, P' h h2 -> P1' h h2) ->
    msim P P' R m m2 -> msim P1 P1' R m m2.
  Proof. intros W1 W2 H h h2 Hp. destruct (H h h2 (W1 _ _ Hp)) as (A1 & A2). split; auto. Qed.
  Lemma form_claim m a h h2 x : In (a_level a) [-1; 0; 1]%Z -> a_precessing a && String.eqb (a_frame a) "inertial" = false -> other_forms L p h h2 ->
    let r := measure_eccentricity L m a p {| wd_heap := h; wd_extra := x |} in
    let r2 := measure_eccentricity L m a p {| wd_heap := h2; wd_extra := x |} in
    wd_extra (fst r) = wd_extra (fst r2) /\ but_unknown (fst (snd r)) = but_unknown (fst (snd r2)) /\ snd (snd r) = snd (snd r2).
  Proof.
    intros Lv F H. pose proof (forms_any _ _ H) as Ha. destruct H as [_ (d & d2 & A & B & D & E & G)].
    apply (call_same L p (forms_of d d2) (hany p) a); [intros ? ? [? _]; assumption|apply good_any| |exact Lv|].
    - eapply msim_weak; [| |exact (plain_read (a_level a) (a_precessing a) (a_frame a) d d2 F)]; [auto|]. intros ? ? [? _]. assumption.
    - exact (conj Ha (conj A (conj B (conj D (conj E G))))).
  Qed.

  (** ** with the change of frame *)
  Notation transform := (transform_inertial_to_coprecessing C (lib_abs L) (lib_phase L) (lib_polar L) (lib_rotate L)).
  Notation coprecessing := (get_coprecessing_data_dict C (lib_rotate L)).
  Definition finish (d : sdict dval) : sdict dval := if smem d "omegalm" then spop d "omegalm" else d.
  Lemma pop_lookup (d : sdict dval) k x : NoDup (dkeys d) -> slookup (spop d k) x = if String.eqb x k then None else slookup d x.
  Proof.
    intros N. destruct (String.eqb_spec x k) as [->|H]; [|now apply slookup_spop]. apply no_key. now apply (keys_spop d k N).
  Qed.
  Lemma finish_lookup (d : sdict dval) x : NoDup (dkeys d) -> slookup (finish d) x = if String.eqb x "omegalm" then None else slookup d x.
  Proof.
    intros N. unfold finish. rewrite smem_lookup. destruct (slookup d "omegalm") eqn:E; [now apply pop_lookup|]. destruct (String.eqb_spec x "omegalm") as [->|H]; auto.
  Qed.
  Lemma finish_keys (d : sdict dval) : NoDup (dkeys d) -> NoDup (dkeys (finish d)).
  Proof. intros N. unfold finish. destruct (smem d "omegalm"); [|exact N]. now apply keys_spop. Qed.
  Lemma quiet msg level : In level [-1; 0]%Z -> dbg msg level false = ([], Ok tt).
  Proof. intros [<-|[<-|[]]]; reflexivity. Qed.
  Lemma finish_step level (d : sdict dval) (h : heap) : In level [-1; 0]%Z ->
    (if smem d ("omegalm" ++ "") then mbind C (mlog C (dbg "removing inertial frame omegalm" level false)) (fun _ => mret C (spop d ("omegalm" ++ ""))) else mret C d) h = (h, ([], Ok (finish d))).
  Proof.
    intros Lv. unfold finish. cbn [String.append]. destruct (smem d "omegalm"); [|reflexivity]. unfold mbind, mlog. now rewrite (quiet _ _ Lv).
  Qed.
  Lemma step {A B} (m : M C A) (k : A -> M C B) h h1 a : m h = (h1, ([], Ok a)) -> mbind C m k h = k a h1.
  Proof. intros H. unfold mbind. rewrite H. cbn [fst snd app]. destruct (k a h1) as [? [? ?]]. reflexivity. Qed.
  Lemma stop {A B} (m : M C A) (k : A -> M C B) h h1 e : m h = (h1, ([], Err e)) -> mbind C m k h = (h1, ([], Err e)).
  Proof. intros H. unfold mbind. rewrite H. reflexivity. Qed.
  Lemma read_top h d : is_dict h p d -> mread C (fun h => top_of C h (Caller C p)) h = (h, ([], Ok d)).
  Proof. intros H. unfold mread, lift. cbn. unfold is_dict in H. now rewrite H. Qed.
  Lemma trans_left level h d m : In level [-1; 0]%Z -> is_dict h p d -> as_complex h d "" m ->
    transform level (Caller C p) "" h = (h, ([], do d1 <- coprecessing h d ""; Ok (finish d1))).
  Proof.
    intros Lv D A. destruct (complex_keys _ _ _ _ A) as (K & _). unfold transform_inertial_to_coprecessing. erewrite step by (apply read_top, D). rewrite K.
    destruct (coprecessing h d "") as [d1|e] eqn:E.
    - erewrite step by (unfold mread, lift; rewrite E; reflexivity). now apply finish_step.
    - erewrite stop by (unfold mread, lift; rewrite E; reflexivity). reflexivity.
  Qed.
  Lemma polar_back m : polar_numbers L -> NoDup (dkeys m) -> polar_modes C (lib_polar L) (absm m) (phasem m) = Ok m.
  Proof.
    intros PN N.
    assert (X : forall m1, (forall k c, In (k, c) m1 -> mget (phasem m) k = Ok (phase c)) -> polar_modes C (lib_polar L) (absm m1) (phasem m) = Ok m1).
    { induction m1 as [|[k c] m1 IH]; intros H; [reflexivity|]. cbn [map polar_modes fst snd]. rewrite (H k c) by (left; reflexivity). cbn [bind].
      rewrite PN. cbn [bind]. rewrite IH by (intros; apply H; now right). reflexivity. }
    apply X. intros k c I. clear X PN. unfold mget, dget. enough (E : dlookup mode_eqb (phasem m) k = Some (phase c)) by now rewrite E.
    assert (ME : forall a b, mode_eqb a b = true <-> a = b).
    { intros [a1 a2] [b1 b2]. unfold mode_eqb. cbn. rewrite Bool.andb_true_iff, !Z.eqb_eq. split; [intros [-> ->]; reflexivity|intros E; injection E; auto]. }
    induction m as [|[k1 c1] m IH]; [destruct I|]. cbn [dkeys map fst] in N. inversion_clear N. cbn [map dlookup fst snd].
    destruct (mode_eqb k k1) eqn:E.
    - apply ME in E. subst k1. destruct I as [I|I]; [now injection I as ->|]. exfalso. apply H. now apply (in_map fst) in I.
    - apply IH; [assumption|]. destruct I as [I|I]; [|exact I]. injection I as -> ->. rewrite (proj2 (ME k k) eq_refl) in E. discriminate.
  Qed.
  Lemma no_zero_ampl h (d : sdict dval) : no_counterpart d -> amplm_for C abs h d "_zeroecc" = Ok [] /\ phaselm_for C phase h d "_zeroecc" = Ok [].
  Proof. intros (A & B & D). unfold amplm_for, phaselm_for. cbn [String.append]. rewrite (no_key _ _ A), (no_key _ _ B), (no_key _ _ D). auto. Qed.
  Lemma hlm_back h d m : polar_numbers L -> NoDup (dkeys m) -> as_polar L h d "" m -> no_counterpart d ->
    (do a <- get_amplm_from_dataDict C abs h d; do q <- get_phaselm_from_dataDict C phase h d; get_hlm_from_amplm_phaselm C (lib_polar L) h a q) = Ok [("hlm", VCplx C m)].
  Proof.
    intros PN N A Z. unfold get_amplm_from_dataDict, get_phaselm_from_dataDict. destruct (polar_ampl _ _ _ _ A) as [-> ->], (no_zero_ampl h d Z) as [-> ->].
    cbn [bind]. unfold get_hlm_from_amplm_phaselm. cbn [String.append]. cbv zeta.
    unfold sget, dget. cbn [dlookup String.eqb Ascii.eqb Bool.eqb bind real_of]. destruct m as [|[k c] m]; [reflexivity|].
    change (absm ((k, c) :: m)) with ((k, abs c) :: absm m) at 1. cbv iota.
    cbn [bind]. rewrite (polar_back _ PN N). reflexivity.
  Qed.
  Definition with_hlm (m : mdict C) (d : sdict dval) : sdict dval := dupdate String.eqb d [("hlm", VCplx C m)].
  Lemma trans_right level h d m : In level [-1; 0]%Z -> polar_numbers L -> NoDup (dkeys m) -> is_dict h p d -> as_polar L h d "" m -> no_counterpart d ->
    let h' := set_nth h p (OTop C (with_hlm m d)) in
    transform level (Caller C p) "" h = (h', ([], do d1 <- coprecessing h' (with_hlm m d) ""; Ok (finish (spop (spop d1 "amplm") "phaselm")))).
  Proof.
    intros Lv PN N D A Z h'. pose proof (hlm_back h d m PN N A Z) as Hh. destruct (polar_keys _ _ _ _ A) as (K & _).
    assert (D' : nth_error h' p = Some (OTop C (with_hlm m d))).
    { unfold h'. rewrite nth_set, Nat.eqb_refl. assert (X : p <? length h = true) by (apply Nat.ltb_lt, nth_error_Some; unfold is_dict in D; congruence). now rewrite X. }
    unfold transform_inertial_to_coprecessing. erewrite step by (apply read_top, D). rewrite K.
    assert (U : update_place C (Caller C p) [("hlm", VCplx C m)] h = (h', ([], Ok (Caller C p)))) by (unfold update_place; unfold is_dict in D; now rewrite D).
    destruct (coprecessing h' (with_hlm m d) "") as [d1|e] eqn:E.
    - erewrite step.
      2:{ erewrite step by (unfold mread, lift; rewrite Hh; reflexivity). erewrite step by exact U. erewrite step by (apply read_top; exact D').
          erewrite step by (unfold mread, lift; rewrite E; reflexivity). erewrite step by (unfold mlog; apply f_equal, quiet, Lv). reflexivity. }
      exact (finish_step level (spop (spop d1 "amplm") "phaselm") h' Lv).
    - erewrite stop.
      2:{ erewrite step by (unfold mread, lift; rewrite Hh; reflexivity). erewrite step by exact U. erewrite step by (apply read_top; exact D').
          erewrite stop by (unfold mread, lift; rewrite E; reflexivity). reflexivity. }
      reflexivity.
  Qed.
  Definition two_forms (d d2 : sdict dval) (m : mdict C) (h h2 : heap) : Prop := hany p h h2 /\ is_dict h p d /\ is_dict h2 p d2 /\
    NoDup (dkeys d) /\ NoDup (dkeys d2) /\ same_at other_keys d d2 /\ NoDup (dkeys m) /\ as_complex h d "" m /\ as_polar L h2 d2 "" m /\ no_counterpart d /\ no_counterpart d2.
  Definition ready (x y : sdict dval) : Prop := drel x y /\ smem x "hlm_zeroecc" = false /\ smem x "amplm_zeroecc" = false.
  Lemma trans_forms level d d2 m : In level [-1; 0]%Z -> polar_numbers L ->
    msim (two_forms d d2 m) (hany p) ready (transform level (Caller C p) "") (transform level (Caller C p) "").
  Proof.
    intros Lv PN h h2 (Ha & D & D2 & N & N2 & S & Nm & A & B & Z & Z2). rewrite (trans_left level h d m Lv D A), (trans_right level h2 d2 m Lv PN Nm D2 B Z2). cbn [fst snd].
    set (h' := set_nth h2 p (OTop C (with_hlm m d2))).
    assert (Ha' : hany p h h').
    { destruct Ha as [H _]. split.
      - intros q Hq. unfold h'. rewrite nth_set. assert (E : p =? q = false) by (apply Nat.eqb_neq; auto). rewrite E. apply H, Hq.
      - exists d, (with_hlm m d2). split; [exact D|]. unfold is_dict, h'. rewrite nth_set, Nat.eqb_refl.
        assert (X : p <? length h2 = true) by (apply Nat.ltb_lt, nth_error_Some; unfold is_dict in D2; congruence). now rewrite X. }
    split; [exact Ha'|]. split; [reflexivity|].
    assert (W : forall x, slookup (with_hlm m d2) x = if String.eqb x "hlm" then Some (VCplx C m) else slookup d2 x).
    { intros x. unfold with_hlm. cbn [dupdate]. change (dset String.eqb d2 "hlm" (VCplx C m)) with (sset d2 "hlm" (VCplx C m)). apply slookup_sset. }
    assert (NW : NoDup (dkeys (with_hlm m d2))) by (apply keys_update; exact N2).
    destruct (complex_read _ _ _ _ (proj1 A)) as (v & Hv & Ev).
    unfold get_coprecessing_data_dict. rewrite !sget_lookup. cbn [String.append] in *. rewrite (W "hlm"), (W "t"). cbn [String.eqb Ascii.eqb Bool.eqb].
    rewrite Hv. cbn [bind]. rewrite Ev. cbn [cplx_of bind]. rewrite <- (S "t") by (cbn; auto).
    destruct (package_ell2 C m); [cbn [bind]|reflexivity]. destruct (slookup d "t") as [tv|]; [cbn [bind]|reflexivity].
    destruct (arr_of C tv); [cbn [bind]|reflexivity]. destruct (lib_rotate L _ _) as [rot|]; [cbn [bind]|reflexivity].
    set (x := sset (deepcopy C h d) "hlm" (VCplx C (combine ell2 rot))). set (y := sset (deepcopy C h' (with_hlm m d2)) "hlm" (VCplx C (combine ell2 rot))).
    assert (K : forall h (d : sdict dval), dkeys (deepcopy C h d) = dkeys d) by (intros; apply deepcopy_keys).
    assert (Nx : NoDup (dkeys x)) by (apply keys_sset; now rewrite K). assert (Ny : NoDup (dkeys y)) by (apply keys_sset; now rewrite K).
    assert (Ny1 : NoDup (dkeys (spop y "amplm"))) by now apply keys_spop. assert (Ny2 : NoDup (dkeys (spop (spop y "amplm") "phaselm"))) by now apply keys_spop.
    assert (Lx : forall k, slookup (finish x) k = if String.eqb k "omegalm" then None else if String.eqb k "hlm" then Some (VCplx C (combine ell2 rot)) else option_map (deep_val C h) (slookup d k)).
    { intros k. rewrite (finish_lookup x k Nx). unfold x. now rewrite slookup_sset, slookup_deepcopy. }
    assert (Ly : forall k, slookup (finish (spop (spop y "amplm") "phaselm")) k = if String.eqb k "omegalm" then None else if String.eqb k "phaselm" then None else if String.eqb k "amplm" then None else
      if String.eqb k "hlm" then Some (VCplx C (combine ell2 rot)) else option_map (deep_val C h') (slookup d2 k)).
    { intros k. rewrite (finish_lookup _ k Ny2), (pop_lookup _ "phaselm" k Ny1), (pop_lookup _ "amplm" k Ny). unfold y. rewrite slookup_sset, slookup_deepcopy, W.
      destruct (String.eqb k "hlm"); reflexivity. }
    assert (NA : slookup d "amplm" = None) by (apply no_key, (proj1 (proj2 A))). assert (NP : slookup d "phaselm" = None) by (apply no_key, (proj2 (proj2 A))).
    destruct Z as (Z1 & Z3 & Z4), Z2 as (Y1 & Y3 & Y4). apply no_key in Z1, Z3, Z4, Y1, Y3, Y4.
    split; [|split; rewrite smem_lookup, Lx; cbn [String.eqb Ascii.eqb Bool.eqb]; [now rewrite Z1|now rewrite Z3]].
    split; [now apply finish_keys|]. split; [now apply finish_keys|]. intros k Hk. rewrite Lx, Ly.
    assert (DS : forall o, option_map (deep_val C h) o = option_map (deep_val C h') o).
    { intros [o|]; [|reflexivity]. cbn. f_equal. now apply (deep_same p). }
    unfold known_keys in Hk. cbn [In] in Hk.
    repeat (destruct Hk as [<-|Hk]; [cbn [String.eqb Ascii.eqb Bool.eqb]; rewrite ?NA, ?NP, ?Z1, ?Z3, ?Z4, ?Y1, ?Y3, ?Y4; try reflexivity; rewrite DS, S by (cbn; auto); reflexivity|]). destruct Hk.
  Qed.
  Lemma frame_read level d d2 m : In level [-1; 0]%Z -> polar_numbers L ->
    msim (two_forms d d2 m) (hany p) eq (reading level true "inertial" p) (reading level true "inertial" p).
  Proof.
    intros Lv PN h0 h02 H0.
    assert (K : check_representation C d = check_representation C d2).
    { destruct H0 as (_ & _ & _ & _ & _ & _ & _ & A & B & Z & Z2). apply (form_check h0 h02).
      - right. exists m. auto.
      - left. intros k Hk. destruct Z as (Z1 & Z3 & Z4), Z2 as (Y1 & Y3 & Y4). cbn in Hk. destruct Hk as [<-|[<-|[<-|[]]]]; rewrite !no_key; auto. }
    revert h0 h02 H0. change (msim (two_forms d d2 m) (hany p) eq (reading level true "inertial" p) (reading level true "inertial" p)).
    assert (PA : forall h h2, two_forms d d2 m h h2 -> hany p h h2) by (intros ? ? [X _]; exact X).
    unfold read_waveform. change (true && String.eqb "inertial" "inertial") with true. cbv iota.
    eapply (msim_bind _ (two_forms d d2 m)); [exact PA|apply (dict_sim d d2); intros h h2 (_ & A & B & _); auto|]. intros x y [-> ->]. rewrite K.
    eapply (msim_bind _ (two_forms d d2 m)); [exact PA|apply msim_lift|]. intros _ _ _.
    eapply (msim_bind _ (hany p) _ drel); [auto| |].
    { eapply (msim_bind _ (two_forms d d2 m)); [exact PA|apply msim_log|]. intros _ _ _.
      eapply (msim_bind _ (hany p)); [auto|now apply trans_forms|]. intros d1 d3 (R & E1 & E2).
      assert (F1 : smem d3 "hlm_zeroecc" = false) by (rewrite <- (mem_same d1 d3 _ R); [exact E1|known]). assert (F2 : smem d3 "amplm_zeroecc" = false) by (rewrite <- (mem_same d1 d3 _ R); [exact E2|known]).
      rewrite E1, E2, F1, F2. now apply msim_ret. }
    intros d1 d3 R1. pose proof R1 as (_ & _ & D). rewrite !D by known.
    eapply msim_seq; [apply msim_lift|]. intros t ? <-.
    eapply msim_seq; [apply msim_same; intros h h2 Hp; now apply (apo_same _ _ p)|]. intros apo ? <-. cbv zeta.
    apply msim_same. intros h h2 Hp. rewrite (modes_same p h h2 _ _ Hp), (gw_same p h h2 _ _ _ Hp). reflexivity.
  Qed.
  Lemma frame_claim m a h h2 x : polar_numbers L -> In (a_level a) [-1; 0]%Z -> a_precessing a = true -> a_frame a = "inertial" -> both_forms L p h h2 false ->
    let r := measure_eccentricity L m a p {| wd_heap := h; wd_extra := x |} in
    let r2 := measure_eccentricity L m a p {| wd_heap := h2; wd_extra := x |} in
    wd_extra (fst r) = wd_extra (fst r2) /\ but_unknown (fst (snd r)) = but_unknown (fst (snd r2)) /\ snd (snd r) = snd (snd r2).
  Proof.
    intros PN Lv Pr Fr [H (d & d2 & ms & A & B & N & N2 & S & Nm & E & G & Z & Z2)].
    assert (Ha : hany p h h2) by (split; [exact H|exists d, d2; auto]).
    apply (call_same L p (two_forms d d2 ms) (hany p) a); [intros ? ? [? _]; assumption|apply good_any| | |].
    - rewrite Pr, Fr. now apply frame_read.
    - cbn in Lv |- *. tauto.
    - unfold two_forms. auto 20.
  Qed.
End S.
