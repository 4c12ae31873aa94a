(** C92: the warnings of a load. *)
From Coq Require Import Qabs Lia Lqa.
From Verif Require Import Base BaseLemmas UtilsModel UtilsSpec UtilsLemmas MeasureModel DataModel DataLemmas2 HelperModel HelperSpec HelperLemmas LoadModel LoadSpec LoadValuesSpec LoadLemmas LoadKeys LoadWave LoadLAL LoadZero LoadSpins LoadNR LoadSXS LoadInv LoadClaims LoadOther.
Open Scope string_scope.
Open Scope nat_scope.

Lemma lbind_in {A B} (m : lg A) (f : A -> lg B) a x : snd m = Ok a -> In x (fst (lbind m f)) <-> In x (fst m) \/ In x (fst (f a)).
Proof. intros H. unfold lbind. rewrite H. cbn [fst]. apply in_app_iff. Qed.
(** only the warnings about masses and missing horizon data *)
Definition plain {A} (m : lg A) : Prop := forall x, In x (fst m) -> x = "m1 < m2" \/ x = "no Horizons.h5".
Lemma plain_lift {A} (r : res A) : plain (lift r).
Proof. intros x []. Qed.
Lemma plain_ret {A} (a : A) : plain (lret a).
Proof. intros x []. Qed.
Lemma plain_bind {A B} (m : lg A) (f : A -> lg B) : plain m -> (forall a, plain (f a)) -> plain (lbind m f).
Proof. intros M F x I. unfold lbind in I. destruct (snd m) as [a|]; cbn [fst] in I; [apply in_app_iff in I; destruct I as [I|I]; [exact (M x I)|exact (F a x I)]|exact (M x I)]. Qed.
Lemma not_plain {A} (m : lg A) x : plain m -> In x circle_warnings -> ~ In x (fst m).
Proof. intros M C I. destruct (M x I) as [->| ->]; cbn in C; intuition discriminate. Qed.
Lemma nothing_logged {A} (a : A) x : In x (fst (lret a)) <-> False.
Proof. reflexivity. Qed.
Ltac lstep H x E := destruct (lbind_inv _ _ _ H) as (x & E & _); cbn [lift snd] in E; rewrite E, lbind_lift_ok in H; rewrite E, lbind_lift_ok.

Ltac kwtac := let k := fresh "k" in let N := fresh "N" in intros k N; unfold slookup; cbn;
    repeat match goal with |- context [String.eqb k ?c] => destruct (String.eqb_spec k c); [try congruence; subst; try reflexivity; try contradiction|] end; reflexivity.
Ltac lstep2 H L x E := destruct (lbind_inv _ _ _ H) as (x & E & _); cbn [lift snd] in E; rewrite E, lbind_lift_ok in H; rewrite E, lbind_lift_ok in L.
Section Warn.
  Variable S : sources.
  Lemma plain_params m : plain (params_of_metadata m).
  Proof.
    unfold params_of_metadata. destruct (Qeq_bool (md_m2 m) 0); [intros x []|]. cbv zeta. apply plain_bind; [|intros; apply plain_ret].
    destruct (Qlt_bool _ _); [|apply plain_ret]. destruct (Qlt_bool _ _); [|intros x []]. apply plain_bind; [|intros; apply plain_ret]. intros x [<-|[]]. now left.
  Qed.
  Lemma plain_check latest kw : plain (check_sxs_data_dir S latest kw).
  Proof.
    unfold check_sxs_data_dir. do 6 (apply plain_bind; [apply plain_lift|intros ?]). destruct (so_exists S _ FHorizons); [apply plain_ret|]. apply plain_bind; [|intros; apply plain_ret]. intros x [<-|[]]. now right.
  Qed.
  Lemma plain_new kw : plain (get_modes_new S kw).
  Proof.
    unfold get_modes_new. do 4 (apply plain_bind; [apply plain_lift|intros ?]). apply plain_bind.
    - destruct a2; [apply plain_ret|]. apply plain_bind; [apply plain_lift|intros ?]. apply plain_bind; [apply plain_params|intros ?]. apply plain_bind; [apply plain_lift|intros ?; apply plain_ret].
    - intros ?. do 6 (apply plain_bind; [apply plain_lift|intros ?]). apply plain_ret.
  Qed.

  Definition logged (fuel : nat) (o : string) (u : lkwargs) (data : data_dict) (log : list string) : Prop :=
    (wanted o u "include_zero_ecc" -> exists q c1 c2 a ano p tz dz t d, binary S o u q c1 c2 /\ asked o u "zero_ecc_approximant" a /\ nr_kw p a q c1 c2 ano /\
       holds data "t" (DTime t) /\ snd (get_zeroecc_dataDict_for_nr S fuel t d p) = Ok (tz, dz) /\ forall x, In x circle_warnings -> In x log <-> In x (fst (get_zeroecc_dataDict_for_nr S fuel t d p))) /\
    (~ wanted o u "include_zero_ecc" -> forall x, In x circle_warnings -> ~ In x log).

  Lemma lvcnr_logged fuel u data : snd (load_lvcnr_waveform S fuel u) = Ok data -> logged fuel "LVCNR" u data (fst (load_lvcnr_waveform S fuel u)).
  Proof.
    unfold load_lvcnr_waveform. intros H. rewrite (defaults_published "LVCNR"), lbind_lift_ok in H by (cbn; tauto). rewrite (defaults_published "LVCNR"), lbind_lift_ok by (cbn; tauto).
    lstep H kw C. lstep H path PT. lstep H dt DT. lstep H om OM. cbv zeta in H |- *. lstep H f F. lstep H raw RW. lstep H h22 H22. lstep H p P. lstep H orbits OB. lstep H td TD. lstep H z ZE.
    pose proof (proj1 (wanted_iff _ _ _ _ _ C ZE)) as WZ. destruct (lbind_inv _ _ _ H) as (data1 & D1 & H'). destruct (lbind_inv _ _ _ H') as (wp & WP & H''). cbn [lift snd] in WP. cbn [lret snd] in H''. apply Ok_inj in H''. apply str_get in PT.
    assert (LG : forall x, In x (fst (let! wp0 := lift (has_true kw "include_params_dict") in lret (if wp0 then (data1 ++ [("params_dict", DParams (nr_params
       (nr_m1 f * 10 / (nr_m1 f + nr_m2 f) * so_msun S / (nr_m2 f * 10 / (nr_m1 f + nr_m2 f) * so_msun S))%Q (fst (nr_spins f 0 10)) (snd (nr_spins f 0 10)) (nr_ecc f) (nr_anomaly f)))])%list else data1))) <-> False).
    { intros x. rewrite WP, lbind_lift_ok. apply nothing_logged. }
    split.
    - intros W. apply WZ in W. subst z. destruct (lbind_inv _ _ _ D1) as (a & A & D2). cbn [lift snd] in A. rewrite A, lbind_lift_ok in D1. destruct (lbind_inv _ _ _ D1) as ([tz dz] & GZ & D3). cbn [lret snd fst] in D3. apply Ok_inj in D3. apply sget_ok in A.
      do 5 eexists. exists (sset (nr_params (nr_m1 f * 10 / (nr_m1 f + nr_m2 f) * so_msun S / (nr_m2 f * 10 / (nr_m1 f + nr_m2 f) * so_msun S))%Q (fst (nr_spins f 0 10)) (snd (nr_spins f 0 10)) (nr_ecc f) (nr_anomaly f)) "approximant" a), tz, dz, (fst td), (snd td).
      split; [right; left; split; [reflexivity|]; exists path, f; split; [eapply asked_of; eassumption|]; split; [exact F|]; split; [symmetry; apply surjective_pairing|]; intros M0 M1 M2; instantiate (1 := (nr_m1 f * 10 / (nr_m1 f + nr_m2 f) * so_msun S / (nr_m2 f * 10 / (nr_m1 f + nr_m2 f) * so_msun S))%Q); field; repeat split; lra|].
      split; [eapply asked_of; eassumption|]. split; [kwtac|]. split; [subst data1 data; destruct wp; reflexivity|]. split; [exact GZ|]. intros x X.
      rewrite (lbind_in _ _ data1 x) by (apply sget_ok in A; rewrite A, lbind_lift_ok; exact D1). rewrite LG. apply sget_ok in A. rewrite A, lbind_lift_ok. rewrite (lbind_in _ _ (tz, dz) x) by exact GZ. rewrite nothing_logged. tauto.
    - intros W x X. destruct z; [exfalso; apply W, WZ; reflexivity|]. rewrite (lbind_in _ _ data1 x) by exact D1. rewrite LG, nothing_logged. tauto.
  Qed.
  Lemma hack_logged fuel u data : snd (load_lvcnr_hack S fuel u) = Ok data -> logged fuel "LVCNR_hack" u data (fst (load_lvcnr_hack S fuel u)).
  Proof.
    unfold load_lvcnr_hack. intros H. rewrite (defaults_published "LVCNR_hack"), lbind_lift_ok in H by (cbn; tauto). rewrite (defaults_published "LVCNR_hack"), lbind_lift_ok by (cbn; tauto).
    lstep H kw C. lstep H path PT. lstep H f F. lstep H a0 A0. lstep H p0 P0. lstep H an AN. lstep H pn PN. lstep H dt DT. lstep H t T. lstep H amp AM. lstep H ph PH. lstep H orbits OB. lstep H td TD. cbv zeta in H |- *. lstep H wp WP. lstep H z ZE.
    pose proof (proj1 (wanted_iff _ _ _ _ _ C ZE)) as WZ. apply str_get in PT. split.
    - intros W. apply WZ in W. subst z. lstep H a A. destruct (lbind_inv _ _ _ H) as ([tz dz] & GZ & D3). cbn [lret snd fst] in D3. apply Ok_inj in D3. apply sget_ok in A.
      do 5 eexists. exists (sset (nr_params (ra_m1 f / ra_m2 f)%Q (ra_chi1 f) (ra_chi2 f) (Some (ra_ecc f)) (Some (ra_anomaly f))) "approximant" a), tz, dz, (fst td), (snd td).
      split; [right; right; split; [reflexivity|]; exists path, f; split; [eapply asked_of; eassumption|]; split; [exact F|]; repeat split; reflexivity|].
      split; [eapply asked_of; eassumption|]. split; [kwtac|]. split; [subst data; destruct wp; reflexivity|]. split; [exact GZ|]. intros x X.
      rewrite (lbind_in _ _ (tz, dz) x) by exact GZ. rewrite nothing_logged. tauto.
    - intros W x X. destruct z; [exfalso; apply W, WZ; reflexivity|]. rewrite nothing_logged. tauto.
  Qed.
  Lemma sxs_logged (latest : bool) fuel u data : snd (load_sxs S latest fuel u) = Ok data -> logged fuel (sxs_name latest) u data (fst (load_sxs S latest fuel u)).
  Proof.
    unfold load_sxs. intros H. assert (DF : get_load_waveform_defaults (if latest then "SXSCatalog" else "SXSCatalog_old") = Ok (published (sxs_name latest))) by (unfold sxs_name; apply defaults_published; destruct latest; cbn; tauto).
    rewrite DF, lbind_lift_ok in H. rewrite DF, lbind_lift_ok. lstep H kw C. destruct (lbind_inv _ _ _ H) as (hz & HZ & H1). destruct (lbind_inv _ _ _ H1) as (gd & GD & H2). clear DF.
    assert (L0 : forall x, In x circle_warnings -> In x (fst (let! hz0 := check_sxs_data_dir S latest kw in let! td := (if latest then get_modes_new S kw else lift (get_modes_old S kw)) in make_return_dict S fuel (fst td) (snd td) hz0 kw)) <-> In x (fst (make_return_dict S fuel (fst gd) (snd gd) hz kw))).
    { intros x X. rewrite (lbind_in _ _ hz x HZ), (lbind_in _ _ gd x GD). pose proof (not_plain _ x (plain_check latest kw) X).
      assert (~ In x (fst (if latest then get_modes_new S kw else lift (get_modes_old S kw)))) by (destruct latest; [exact (not_plain _ x (plain_new kw) X)|intros []]). tauto. }
    clear H H1. rename H2 into H. unfold logged.
    enough (G : logged fuel (sxs_name latest) u data (fst (make_return_dict S fuel (fst gd) (snd gd) hz kw))).
    { destruct G as [G1 G2]. split.
      - intros W. destruct (G1 W) as (q & c1 & c2 & a & ano & p & tz & dz & t & d & B & A & K & T & G & E). exists q, c1, c2, a, ano, p, tz, dz, t, d. do 5 (split; [assumption|]). intros x X. rewrite (L0 x X). exact (E x X).
      - intros W x X. rewrite (L0 x X). exact (G2 W x X). }
    clear L0 HZ GD. unfold make_return_dict in *. lstep H orbits OB. lstep H dir DIR. apply str_get in DIR. lstep H td JU. lstep H p P. cbv zeta in H |- *. lstep H meta ME.
    destruct (lbind_inv _ _ _ H) as (params & PA & H1). set (m1 := if meta then _ else _) in *.
    assert (PL : plain m1) by (unfold m1; destruct meta; [apply plain_bind; [apply plain_lift|intros; apply plain_params]|apply plain_ret]).
    match type of H with snd (lbind _ ?f) = _ => set (rest := f) in * end.
    assert (L0 : forall x, In x circle_warnings -> In x (fst (lbind m1 rest)) <-> In x (fst (rest params))) by (intros x X; rewrite (lbind_in _ _ params x PA); pose proof (not_plain _ x PL X); tauto).
    enough (G : logged fuel (sxs_name latest) u data (fst (rest params))).
    { destruct G as [G1 G2]. split.
      - intros W. destruct (G1 W) as (q & c1 & c2 & a & ano & pp & tz & dz & t & d & B & A & K & T & G & E). exists q, c1, c2, a, ano, pp, tz, dz, t, d. do 5 (split; [assumption|]). intros x X. rewrite (L0 x X). exact (E x X).
      - intros W x X. rewrite (L0 x X). exact (G2 W x X). }
    clear L0 H. rename H1 into H. unfold rest in *. clear rest. lstep H z ZE. pose proof (proj1 (wanted_iff _ _ _ _ _ C ZE)) as WZ.
    destruct (lbind_inv _ _ _ H) as (data1 & D1 & H'). destruct (lbind_inv _ _ _ H') as (wp & WP & H''). cbn [lift snd] in WP. cbn [lret snd] in H''. apply Ok_inj in H''. split.
    - intros W. apply WZ in W. subst z. destruct (lbind_inv _ _ _ D1) as (a & A & D2). cbn [lift snd] in A. pose proof D1 as D0. rewrite A, lbind_lift_ok in D1. destruct (lbind_inv _ _ _ D1) as ([tz dz] & GZ & D3). cbn [lret snd fst] in D3. apply Ok_inj in D3. pose proof A as A'. apply sget_ok in A'.
      assert (B : exists q c1 c2, binary S (sxs_name latest) u q c1 c2 /\ exists rx, params = [("q", Some (ANum q)); ("chi1", Some (AVec c1)); ("chi2", Some (AVec c2)); ("t_relax", rx)]).
      { unfold metadata_needed in ME. rewrite ZE, WP in ME. cbn [bind] in ME. apply Ok_inj in ME. assert (M1 : meta = true) by (subst; reflexivity). unfold m1 in PA. rewrite M1 in PA.
        apply lbind_inv in PA. destruct PA as (m & M & PA). cbn [lift snd] in M. apply params_ok in PA. destruct PA as (q & MR & ->). exists q, (md_chi1 m), (md_chi2 m). split; [|eauto].
        left. split; [destruct latest; cbn; tauto|]. exists dir, m. split; [eapply asked_of; eassumption|]. split; [exact M|]. auto. }
      destruct B as (q & c1 & c2 & B & rx & ->).
      exists q, c1, c2, a, (Some (ANum 0)). eexists. exists tz, dz, (shift (fst td) p), (snd td). split; [exact B|]. split; [eapply asked_of; eassumption|]. split; [|split; [|split; [exact GZ|]]].
      + kwtac.
      + subst data1 data. destruct wp; reflexivity.
      + intros x X. rewrite (lbind_in _ _ data1 x D0). rewrite WP, lbind_lift_ok, nothing_logged, A, lbind_lift_ok. rewrite (lbind_in _ _ (tz, dz) x) by exact GZ. rewrite nothing_logged. tauto.
    - intros W x X. destruct z; [exfalso; apply W, WZ; reflexivity|]. rewrite (lbind_in _ _ data1 x) by exact D1. rewrite WP, lbind_lift_ok, !nothing_logged. tauto.
  Qed.
  Lemma nr_logged fuel o u data : In o numerical -> snd (load_waveform S fuel o u) = Ok data -> logged fuel o u data (fst (load_waveform S fuel o u)).
  Proof.
    intros I H. cbn in I. unfold load_waveform in *. destruct I as [<-|[<-|[<-|[<-|[]]]]]; cbn [String.eqb Ascii.eqb Bool.eqb] in *.
    - exact (sxs_logged true _ _ _ H).
    - exact (sxs_logged false _ _ _ H).
    - exact (lvcnr_logged _ _ _ H).
    - exact (hack_logged _ _ _ H).
  Qed.
  Lemma zero_logged fuel t d p a q c1 c2 ano tz dz : nr_kw p a q c1 c2 ano -> snd (get_zeroecc_dataDict_for_nr S fuel t d p) = Ok (tz, dz) ->
    exists ap ma tm t0 z1 z2 f0 n tf df, a = Some (AStr ap) /\ ano = Some ma /\ peak_of S t d = Ok tm /\ starts t t0 /\ nth_error c1 2 = Some z1 /\ nth_error c2 2 = Some z2 /\
      so_freq S ((tm - t0) * (10 * so_mtsun S))%Q (q * 10 / (1 + q) * so_msun S)%Q (10 / (1 + q) * so_msun S)%Q z1 z2 = Ok f0 /\
      let om := (f0 * (10 * so_mtsun S) * np_pi)%Q in
      generates S (nr_circular ap q c1 c2 ma om) tf df /\ least_tries S (fun m => nr_circular ap q c1 c2 ma (tries (1 # 2) om m)) t0 n /\
      (In "zeroecc waveform is too long" (fst (get_zeroecc_dataDict_for_nr S fuel t d p)) <-> exists z0, starts tf z0 /\ (z0 <= 2 * t0)%Q) /\
      (In "too many tries" (fst (get_zeroecc_dataDict_for_nr S fuel t d p)) <-> 2 <= n).
  Proof.
    remember (fst (get_zeroecc_dataDict_for_nr S fuel t d p)) as log eqn:EL. intros K H. unfold get_zeroecc_dataDict_for_nr in H, EL. lstep2 H EL tm TM. lstep2 H EL t0 T0. lstep2 H EL q' Q'. lstep2 H EL z1 Z1. lstep2 H EL z2 Z2. cbv zeta in H, EL. lstep2 H EL f0 F0. lstep2 H EL kw1 LO. rename LO into O. lstep2 H EL zz ZZ. destruct kw1 as [k1 w1]. cbn [fst snd] in *.
    destruct (lbind_inv _ _ _ H) as (u1 & U1 & H1). destruct (lbind_inv _ _ _ H1) as ([n w] & LG & H2). destruct (lbind_inv _ _ _ H2) as (u2 & U2 & H3). destruct (lbind_inv _ _ _ H3) as (i & I & H4). cbn [lift snd fst] in LG, I, O, ZZ.
    assert (LOG : forall x, In x log <->
       (Qle_bool (- (2 * t0)) (- zz) = true /\ x = "zeroecc waveform is too long") \/ (2 <= n /\ x = "too many tries")).
    { intros x. rewrite EL. rewrite (lbind_in _ _ u1 x U1). rewrite LG, lbind_lift_ok. rewrite (lbind_in _ _ u2 x U2). cbn [fst snd] in *. rewrite I, lbind_lift_ok, nothing_logged.
      destruct (Qle_bool (- (2 * t0)) (- zz)); destruct (2 <=? n) eqn:N; (first [apply Nat.leb_le in N|apply Nat.leb_gt in N]); unfold warn, lret; cbn [fst In]; (split; intros X; [repeat destruct X as [X|X]; try contradiction; subst x; auto|destruct X as [[X ->]|[X ->]]; try discriminate; try lia; auto]). }
    clear EL H H1 H2 H3 H4 U1 U2 I.
    pose proof (K "q" ltac:(discriminate)) as Kq. pose proof (K "chi1" ltac:(discriminate)) as K1. pose proof (K "chi2" ltac:(discriminate)) as K2.
    pose proof (K "approximant" ltac:(discriminate)) as Ka. pose proof (K "mean_ano" ltac:(discriminate)) as Km. cbn in Kq, K1, K2, Ka, Km.
    apply num_get in Q'. rewrite !slookup_sset in Q'. cbn [String.eqb Ascii.eqb Bool.eqb] in Q'. rewrite Kq in Q'. injection Q' as <-.
    apply bind_ok in Z1. destruct Z1 as (v1 & V1 & Z1). apply bind_ok in Z1. destruct Z1 as (l1 & L1 & Z1). apply sget_ok in V1. rewrite !slookup_sset in V1. cbn [String.eqb Ascii.eqb Bool.eqb] in V1.
    rewrite K1 in V1. apply Some_inj in V1. subst v1. apply Ok_inj in L1. subst l1. apply get_ok in Z1.
    apply bind_ok in Z2. destruct Z2 as (v2 & V2 & Z2). apply bind_ok in Z2. destruct Z2 as (l2 & L2 & Z2). apply sget_ok in V2. rewrite !slookup_sset in V2. cbn [String.eqb Ascii.eqb Bool.eqb] in V2.
    rewrite K2 in V2. apply Some_inj in V2. subst v2. apply Ok_inj in L2. subst l2. apply get_ok in Z2.
    unfold time_dimless_to_mks in *. set (om := (f0 * (10 * so_mtsun S) * np_pi)%Q) in *.
    set (kz := sset (sset p "ecc" (Some (ANum 0))) "include_zero_ecc" (Some (ABool false))) in *.
    assert (AM : exists ap ma, a = Some (AStr ap) /\ ano = Some ma).
    { pose proof O as O'. unfold load_LAL_once in O'. apply bind_ok in O'. destruct O' as (x & X & O'). apply bind_ok in O'. destruct O' as ([] & Y & O').
      change lal_defaults with (published "LAL") in X. destruct (checked _ _ _ (published_nodup "LAL") X) as [_ L].
      apply bind_ok in O'. destruct O' as (ap & AP & _). apply str_get in AP. rewrite L, slookup_app in AP. unfold kz in AP. rewrite !slookup_sset in AP. cbn [String.eqb Ascii.eqb Bool.eqb] in AP.
      rewrite Ka in AP. apply Some_inj in AP.
      destruct (proj1 (raise_if_none_spec x _) Y "mean_ano" ltac:(cbn; tauto)) as [ma MA]. rewrite L, slookup_app in MA. unfold kz in MA. rewrite !slookup_sset in MA. cbn [String.eqb Ascii.eqb Bool.eqb] in MA.
      rewrite Km in MA. apply Some_inj in MA. eauto. }
    destruct AM as (ap & ma & -> & ->).
    assert (NT : forall m v, nth_try S (1 # 2) (sset kz "Momega0" (Some (ANum om))) om w1 m v <-> generates S (nr_circular ap q c1 c2 ma (tries (1 # 2) om m)) (fst v) (snd v)).
    { intros m v. destruct m as [|m]; cbn [nth_try].
      - change (tries (1 # 2) om 0) with om. rewrite <- (once_generates S _ _ _ _ _ _ _ v (nr_kw_same p ap q c1 c2 ma om K)). fold kz. split; [intros ->; eauto|]. intros [k E]. congruence.
      - rewrite sset_sset. rewrite <- (once_generates S _ _ _ _ _ _ _ v (nr_kw_same p ap q c1 c2 ma (tries (1 # 2) om (Datatypes.S m)) K)). fold kz. reflexivity. }
    assert (OM : slookup (sset kz "Momega0" (Some (ANum om))) "Momega0" = Some (Some (ANum om))) by (rewrite slookup_sset; reflexivity).
    destruct (longer_ok S (1 # 2) t0 _ _ _ _ _ _ OM LG) as (W & NL & _ & P). apply NT in W.
    assert (W1 : generates S (nr_circular ap q c1 c2 ma om) (fst w1) (snd w1)) by (apply (NT 0); reflexivity). apply get_ok in ZZ.
    exists ap, ma, tm, t0, z1, z2, f0, n, (fst w1), (snd w1). do 2 (split; [reflexivity|]). split; [first [exact TM|reflexivity]|]. split; [now apply get_ok|]. do 3 (split; [first [assumption|reflexivity]|]). cbv zeta. split; [exact W1|]. split.
    - split; [exists (fst w), (snd w); auto|]. intros m M. destruct (P m M) as (v & V & LV). exists (fst v), (snd v). split; [now apply NT|exact LV].
    - split; rewrite LOG.
      + rewrite Qle_bool_iff. split.
        * intros [[L _]|[_ X]]; [|discriminate X]. exists zz. split; [exact ZZ|lra].
        * intros (z0 & ST & L). assert (z0 = zz) by (unfold starts in ST; cbn [snd] in ZZ; congruence). subst z0. left. split; [lra|reflexivity].
      + split; [intros [[_ X]|[L _]]; [discriminate X|exact L]|intros L; right; auto].
  Qed.
  Lemma circle_warned fuel o u data : In o numerical -> snd (load_waveform S fuel o u) = Ok data -> wanted o u "include_zero_ecc" ->
    exists q c1 c2 ap ma t d tm t0 z1 z2 f0 n tf df, binary S o u q c1 c2 /\ asked o u "zero_ecc_approximant" (Some (AStr ap)) /\ holds data "t" (DTime t) /\
      peak_time S t d = Ok tm /\ starts t t0 /\ nth_error c1 2 = Some z1 /\ nth_error c2 2 = Some z2 /\
      so_freq S ((tm - t0) * (10 * so_mtsun S))%Q (q * 10 / (1 + q) * so_msun S)%Q (10 / (1 + q) * so_msun S)%Q z1 z2 = Ok f0 /\
      let om := (f0 * (10 * so_mtsun S) * np_pi)%Q in let log := fst (load_waveform S fuel o u) in
      generates S (nr_circular ap q c1 c2 ma om) tf df /\ least_tries S (fun m => nr_circular ap q c1 c2 ma (tries (1 # 2) om m)) t0 n /\
      (In "zeroecc waveform is too long" log <-> exists z0, starts tf z0 /\ (z0 <= 2 * t0)%Q) /\ (In "too many tries" log <-> 2 <= n).
  Proof.
    intros I H W. destruct (nr_logged fuel o u data I H) as [L _]. destruct (L W) as (q & c1 & c2 & a & ano & p & tz & dz & t & d & B & A & K & T & G & LG).
    destruct (zero_logged _ _ _ _ _ _ _ _ _ _ _ K G) as (ap & ma & tm & t0 & z1 & z2 & f0 & n & tf & df & -> & -> & R). cbv zeta in R. destruct R as (R1 & R2 & R3 & R4 & R5 & R6 & R7 & R8 & R9).
    exists q, c1, c2, ap, ma, t, d, tm, t0, z1, z2, f0, n, tf, df. split; [exact B|]. split; [exact A|]. split; [exact T|]. do 5 (split; [assumption|]). cbv zeta. split; [exact R6|]. split; [exact R7|].
    split; [exact (iff_trans (LG _ (or_introl eq_refl)) R8)|exact (iff_trans (LG _ (or_intror (or_introl eq_refl))) R9)].
  Qed.
  Lemma circle_silent fuel o u data : In o numerical -> snd (load_waveform S fuel o u) = Ok data -> ~ wanted o u "include_zero_ecc" -> forall x, In x circle_warnings -> ~ In x (fst (load_waveform S fuel o u)).
  Proof. intros I H W. exact (proj2 (nr_logged fuel o u data I H) W). Qed.
  Lemma others_silent fuel o u : ~ In o numerical -> fst (load_waveform S fuel o u) = [].
  Proof.
    intros N. unfold load_waveform. assert (E : forall x, In x numerical -> String.eqb o x = false) by (intros x X; apply String.eqb_neq; intros ->; contradiction).
    rewrite (E "SXSCatalog"), (E "SXSCatalog_old"), (E "LVCNR"), (E "LVCNR_hack") by (cbn; tauto). destruct (String.eqb o "LAL"); [reflexivity|]. destruct (String.eqb o "EOB"); [reflexivity|]. destruct (String.eqb o "EMRI"); reflexivity.
  Qed.
End Warn.
