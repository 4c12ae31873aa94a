(** C91: values of the data read from LVCNR and EMRI files.  C92: the warnings about the quasi-circular counterpart. *)
From Coq Require Import Qabs Lia Lqa.
From Verif Require Import Base BaseLemmas UtilsModel UtilsSpec UtilsLemmas MeasureModel DataModel DataLemmas2 HelperModel HelperSpec HelperLemmas LoadModel LoadSpec LoadValuesSpec LoadLemmas LoadKeys LoadWave LoadLAL LoadZero LoadSpins LoadNR LoadSXS LoadInv LoadClaims LoadOther.
Open Scope string_scope.
Open Scope nat_scope.

Lemma map2_nth {A B C} (f : A -> B -> C) : forall a b n x y, nth_error a n = Some x -> nth_error b n = Some y -> nth_error (map2 f a b) n = Some (f x y).
Proof. induction a as [|x0 a IH]; intros [|y0 b] [|n] x y X Y; try discriminate; cbn in *; [congruence|]. now apply IH. Qed.
Lemma rescale_modes k : forall raw : modes, Forall2 (fun a b : mode * list cnum => fst b = fst a /\ rescaled k (snd a) (snd b)) raw (map (fun kv => (fst kv, map (cscale k) (snd kv))) raw).
Proof.
  induction raw as [|[lm h] raw IH]; [constructor|]. cbn [map fst snd]. constructor; [|exact IH]. cbn [fst snd]. split; [reflexivity|]. split; [now rewrite map_length|].
  intros i a b A B. rewrite nth_error_map, A in B. cbn [option_map] in B. apply Some_inj in B. subst b. split; cbn [cscale fst snd]; reflexivity.
Qed.
Lemma np_pi_nonzero : ~ (np_pi == 0)%Q.
Proof. intros E. assert (0 < np_pi)%Q by (unfold np_pi; reflexivity). lra. Qed.

Section Values.
  Variable S : sources.
  Lemma polar_map A P grid : polar S A P grid (map2 (fun a p => cscale a (so_exp S p)) (map A grid) (map P grid)).
  Proof.
    split; [rewrite map2_length, !map_length; apply Nat.min_id|]. intros n x X. rewrite (map2_nth _ _ _ n (A x) (P x)); [reflexivity|rewrite nth_error_map, X; reflexivity|rewrite nth_error_map, X; reflexivity].
  Qed.
  Lemma polar_skip A P t z i : polar S A P t z -> polar S A P (skipn i t) (skipn i z).
  Proof. intros [L V]. split; [rewrite !skipn_length; lia|]. intros n x X. rewrite nth_error_skipn in X. rewrite nth_error_skipn. now apply V. Qed.

  Lemma lvcnr_values fuel u data : snd (load_waveform S fuel "LVCNR" u) = Ok data -> (0 < so_mtsun S)%Q ->
    exists path f dt om orbits t d raw step m1 m2 dist flow t1 d1 i,
      asked "LVCNR" u "filepath" (Some (AStr path)) /\ asked "LVCNR" u "deltaTOverM" (Some (ANum dt)) /\ asked "LVCNR" u "Momega0" (Some (ANum om)) /\
      asked "LVCNR" u "num_orbits_to_remove_as_junk" (Some (ANum orbits)) /\ so_lvcnr S path = Ok f /\ lvcnr_call S f dt om step m1 m2 dist flow /\
      nr_hlms f step m1 m2 dist flow = Ok raw /\
      Forall2 (fun a b : mode * list cnum => fst b = fst a /\ rescaled (/ (so_g S * 10 * so_msun S / (so_c S * so_c S * 1 * 1000000 * so_pc S)))%Q (snd a) (snd b)) raw d1 /\
      uniform dt t1 /\ ((0 < dt)%Q -> merger_at_zero S t1 d1) /\ phase_junk S d1 orbits i /\ without_first i t1 d1 t d /\ holds data "t" (DTime t) /\ holds data "hlm" (DModes d).
  Proof.
    intros H MT. pose proof H as H0. unfold load_waveform in H. cbn [String.eqb Ascii.eqb Bool.eqb] in H. apply lvcnr_inv in H.
    destruct H as (kw & path & f & dt & om & raw & t0 & p & orbits & i & t & d & C & (T & D & _) & PT & DT & OM & OB & F & RW & (h22 & H22 & ET) & P & JU & DR). cbv zeta in P, JU, RW.
    set (d0 := map (fun kv => (fst kv, map (cscale (/ amplitude_dimless_to_mks S 10 1)%Q) (snd kv))) raw) in *.
    assert (U : uniform dt t0).
    { intros j a b A B. rewrite ET in A, B. rewrite nth_error_map in A, B. destruct (nth_error (seq 0 (length h22)) j) as [x|] eqn:X; [|discriminate]. destruct (nth_error (seq 0 (length h22)) (Datatypes.S j)) as [y|] eqn:Y; [|discriminate].
      apply nth_seq in X, Y. destruct X as [-> _], Y as [-> _]. apply Some_inj in A, B. subst a b. rewrite inject_S. unfold time_dimless_to_mks. field. lra. }
    assert (FT : fits t0 d0).
    { intros lm h I. unfold peak_of in P. apply bind_ok in P. destruct P as (aa & AA & _). destruct (amplitude_length S _ _ AA) as [_ LL]. rewrite (LL _ _ I). rewrite ET, map_length, seq_length.
      assert (I2 : In ((2, 2)%Z, map (cscale (/ amplitude_dimless_to_mks S 10 1)%Q) h22) d0).
      { unfold d0. apply in_map_iff. exists ((2, 2)%Z, h22). split; [reflexivity|]. exact (mode_in _ _ _ H22). }
      rewrite <- (LL _ _ I2). now rewrite map_length. }
    destruct (removed _ _ _ _ _ _ JU) as (h & p0 & k & M1 & M2 & M3 & W).
    exists path, f, dt, om, orbits, t, d, raw. do 5 eexists. exists (shift t0 p), d0, k. do 4 (split; [assumption|]). split; [exact F|]. split; [|split; [exact RW|]].
    - unfold lvcnr_call, time_dimless_to_mks. split; [reflexivity|]. split; [unfold Qdiv; ring|]. split; [intros N; field; exact N|]. split; [reflexivity|].
      pose proof np_pi_nonzero as NP. assert (Z : (om / np_pi / (10 * so_mtsun S) == 0)%Q <-> (om == 0)%Q).
      { split; intros E; [|rewrite E; field; split; solve [exact NP|lra]]. assert (X : (om == om / np_pi / (10 * so_mtsun S) * (np_pi * (10 * so_mtsun S)))%Q) by (field; split; solve [exact NP|lra]). rewrite X, E. ring. }
      split.
      + intros E. apply Z, Qeq_bool_iff in E. now rewrite E.
      + intros E. destruct (Qeq_bool (om / np_pi / (10 * so_mtsun S)) 0) eqn:B; [apply Qeq_bool_iff, Z in B; contradiction|]. field. split; solve [exact NP|lra].
    - split; [exact (rescale_modes _ raw)|]. split; [|split; [|split; [exists h, p0; auto|split; [exact W|split; [exact T|exact D]]]]].
      + intros j a b A B. unfold shift in A, B. rewrite nth_error_map in A, B. destruct (nth_error t0 j) as [x|] eqn:X; [|discriminate]. destruct (nth_error t0 (Datatypes.S j)) as [y|] eqn:Y; [|discriminate].
        apply Some_inj in A, B. subst a b. pose proof (U _ _ _ X Y). lra.
      + intros P0. apply (peak_of_shift S t0 d0 p P FT). exact (uniform_increasing dt _ P0 U).
  Qed.

  Lemma hack_values fuel u data : snd (load_waveform S fuel "LVCNR_hack" u) = Ok data ->
    exists path f orbits t grid z z1 A P i, asked "LVCNR_hack" u "filepath" (Some (AStr path)) /\ asked "LVCNR_hack" u "num_orbits_to_remove_as_junk" (Some (ANum orbits)) /\ so_raw S path = Ok f /\
      holds data "t" (DTime t) /\ holds data "hlm" (DModes [((2, 2)%Z, z)]) /\ spline_of S (ra_t_amp f) (ra_amp f) A /\ spline_of S (ra_t_phase f) (ra_phase f) P /\
      polar S A P t z /\ polar S A P grid z1 /\ phase_junk S [((2, 2)%Z, z1)] orbits i /\ without_first i grid [((2, 2)%Z, z1)] t [((2, 2)%Z, z)].
  Proof.
    intros H. unfold load_waveform in H. cbn [String.eqb Ascii.eqb Bool.eqb] in H. apply hack_inv in H.
    destruct H as (kw & path & f & dt & orbits & grid & amp & ph & i & t & d & C & (T & D & _) & PT & DT & OB & F & _ & AM & PH & JU & DR).
    apply resample_ok in AM, PH. destruct AM as [LA [k ->]], PH as [LP [k' ->]]. set (A := so_spline S (ra_t_amp f) (ra_amp f) k) in *. set (P := so_spline S (ra_t_phase f) (ra_phase f) k') in *.
    destruct (removed _ _ _ _ _ _ JU) as (h & p0 & n & M1 & M2 & M3 & W). pose proof W as W'. destruct W' as (TT & KK & VV).
    specialize (VV (2, 2)%Z _ eq_refl). pose proof VV as V0. unfold mode_of in V0. destruct d as [|[lm z] [|? ?]]; try discriminate KK. cbn [map fst] in KK. injection KK as KK. subst lm. cbn in V0. apply Some_inj in V0.
    exists path, f, orbits, t, grid, z. eexists. exists A, P, n. do 3 (split; [assumption|]). split; [exact T|]. split; [exact D|]. split; [exists k; reflexivity|]. split; [exists k'; reflexivity|].
    split; [rewrite V0, TT; apply polar_skip, polar_map|]. split; [apply polar_map|]. split; [exists h, p0; split; [exact M1|auto]|exact W].
  Qed.

  Lemma emri_values fuel u data q : snd (load_waveform S fuel "EMRI" u) = Ok data -> asked "EMRI" u "deltaT" (Some (ANum q)) ->
    exists path tm h s e i j t z w hw A P, asked "EMRI" u "filepath" (Some (AStr path)) /\ emri_times S path tm h /\ asked "EMRI" u "start_time" s /\ asked "EMRI" u "end_time" e /\
      sample_for tm s 0 i /\ sample_for tm e (length tm - 1) j /\ between i j tm w /\ between i j h hw /\ holds data "t" (DTime t) /\ holds data "hlm" (DModes [((2, 2)%Z, z)]) /\
      (length h = length tm ->
       spline_of S w (map (fun c => so_sqrt S (fst c * fst c + snd c * snd c)%Q) hw) A /\ spline_of S w (so_phase S hw) P /\ polar S A P t z) /\
      (wanted "EMRI" u "include_geodesic_ecc" -> exists base ec ew E, without_last 3 path base /\ so_emri_ecc S (base ++ "_ecc.h5") = Ok ec /\ holds data "e_geodesic" (DReal (map E t)) /\
         (length ec = length tm -> between i j ec ew /\ spline_of S w (map Qabs ew) E)).
  Proof.
    intros H A. apply emri_inv in H. destruct H as (kw & path & s & e & dt & t & d & i & j & t' & z & g & zs & gs & C & P & SS & E & DT & F & Z & G & -> & ZS & GS).
    pose proof (asked_unique _ _ _ _ _ (asked_of _ _ _ _ _ C DT) A) as X. destruct dt as [q'|]; [|discriminate]. injection X as ->.
    destruct (emri_file_ok S _ _ _ _ _ _ _ _ _ F) as (tm & h & ni & nj & EM & -> & S1 & S2 & NB & -> & V).
    assert (HD : exists zz, d = [((2, 2)%Z, zz)]).
    { clear - F. unfold emri_file in F. apply bind_ok in F. destruct F as (x & _ & F). apply bind_ok in F. destruct F as (y & _ & F). do 2 (apply bind_ok in F; let b := fresh in destruct F as (b & _ & F)).
      do 5 (apply bind_ok in F; let b := fresh in destruct F as (b & _ & F)). apply Ok_inj in F. injection F; intros. subst d. eauto. }
    destruct HD as [zz ->].
    assert (HV : exists AA PP, length h = length tm -> spline_of S (slice tm ni nj) (map (cabs S) (slice h ni nj)) AA /\ spline_of S (slice tm ni nj) (so_phase S (slice h ni nj)) PP /\ polar S AA PP t zz).
    { destruct (Nat.eq_dec (length h) (length tm)) as [L|L]; [|exists (fun x => x), (fun x => x); intros; contradiction]. destruct (V L) as (_ & _ & _ & k & k' & X). injection X as ->.
      eexists. eexists. intros _. split; [exists k; reflexivity|]. split; [exists k'; reflexivity|]. apply polar_map. }
    destruct HV as (AA & PP & HV).
    exists path, tm, h, (option_map ANum s), (option_map ANum e), ni, nj, t, zz, (slice tm ni nj), (slice h ni nj), AA, PP.
    split; [eapply asked_of; eassumption|]. split; [exact EM|]. do 2 (split; [eapply asked_of; eassumption|]). do 2 (split; [assumption|]). do 2 (split; [apply slice_between|]). do 2 (split; [reflexivity|]). split; [exact HV|].
    intros W. apply (proj1 (wanted_iff _ _ _ _ _ C G)) in W. subst g. destruct GS as (ec & r & EC & -> & R). apply resample_ok in R. destruct R as [_ [k ->]].
    exists (until path (-3)), ec, (slice ec ni nj). eexists. split; [exact (until_last path 3 ltac:(lia))|]. split; [exact EC|]. split.
    - unfold holds. destruct z; [destruct ZS as (zv & zp & tz & dz & w & h' & _ & _ & _ & _ & ->)|subst zs]; reflexivity.
    - intros LE. split; [apply slice_between|]. rewrite (zslice_between ec ni j (length tm) LE), NB. exists k. reflexivity.
  Qed.

  Lemma lvcnr_params fuel o u data : In o ["LVCNR"; "LVCNR_hack"] -> snd (load_waveform S fuel o u) = Ok data -> wanted o u "include_params_dict" ->
    exists q c1 c2 ecc ano, binary S o u q c1 c2 /\ file_params S o u ecc ano /\
      holds data "params_dict" (DParams [("q", Some (ANum q)); ("chi1", Some (AVec c1)); ("chi2", Some (AVec c2)); ("ecc", ecc); ("mean_ano", ano)]).
  Proof.
    intros I H W. cbn in I. destruct I as [<-|[<-|[]]]; unfold load_waveform in H; cbn [String.eqb Ascii.eqb Bool.eqb] in H.
    - unfold load_lvcnr_waveform in H. rewrite (defaults_published "LVCNR"), lbind_lift_ok in H by (cbn; tauto). apply lbind_inv in H. destruct H as (kw & C & H). cbn [lift snd] in C.
      apply lbind_inv in H. destruct H as (path & PT & H). cbn [lift snd] in PT. apply str_get in PT. apply lbind_inv in H. destruct H as (dt & _ & H). apply lbind_inv in H. destruct H as (om & _ & H). cbv zeta in H.
      apply lbind_inv in H. destruct H as (f & F & H). cbn [lift snd] in F. apply lbind_inv in H. destruct H as (raw & _ & H). apply lbind_inv in H. destruct H as (h22 & _ & H). apply lbind_inv in H. destruct H as (p & _ & H).
      apply lbind_inv in H. destruct H as (orbits & _ & H). apply lbind_inv in H. destruct H as (td & _ & H). apply lbind_inv in H. destruct H as (z & Z & H). apply lbind_inv in H. destruct H as (data1 & D1 & H).
      apply lbind_inv in H. destruct H as (wp & WP & H). cbn [lift snd lret] in WP, H. apply (proj1 (wanted_iff _ _ _ _ _ C WP)) in W. subst wp. apply Ok_inj in H. subst data.
      do 5 eexists. split; [right; left; split; [reflexivity|]; exists path, f; split; [eapply asked_of; eassumption|]; split; [exact F|]; split; [symmetry; apply surjective_pairing|]|].
      { intros M0 M1 M2. instantiate (1 := (nr_m1 f * 10 / (nr_m1 f + nr_m2 f) * so_msun S / (nr_m2 f * 10 / (nr_m1 f + nr_m2 f) * so_msun S))%Q). field. repeat split; lra. }
      split; [exists path; split; [eapply asked_of; eassumption|]; left; split; [reflexivity|]; exists f; split; [exact F|]; split; reflexivity|].
      destruct z; [apply lbind_inv in D1; destruct D1 as (a & _ & D1); apply lbind_inv in D1; destruct D1 as (x & _ & D1)|]; cbn [lret snd] in D1; apply Ok_inj in D1; subst data1; reflexivity.
    - unfold load_lvcnr_hack in H. rewrite (defaults_published "LVCNR_hack"), lbind_lift_ok in H by (cbn; tauto). apply lbind_inv in H. destruct H as (kw & C & H). cbn [lift snd] in C.
      apply lbind_inv in H. destruct H as (path & PT & H). cbn [lift snd] in PT. apply str_get in PT. apply lbind_inv in H. destruct H as (f & F & H). cbn [lift snd] in F.
      do 9 (apply lbind_inv in H; let b := fresh in destruct H as (b & _ & H)). apply lbind_inv in H. destruct H as (td & _ & H). cbv zeta in H. apply lbind_inv in H. destruct H as (wp & WP & H). apply lbind_inv in H. destruct H as (z & Z & H).
      cbn [lift snd] in WP. apply (proj1 (wanted_iff _ _ _ _ _ C WP)) in W. subst wp.
      do 5 eexists. split; [right; right; split; [reflexivity|]; exists path, f; split; [eapply asked_of; eassumption|]; split; [exact F|]; repeat split; reflexivity|].
      split; [exists path; split; [eapply asked_of; eassumption|]; right; split; [reflexivity|]; exists f; split; [exact F|]; split; reflexivity|].
      destruct z; [apply lbind_inv in H; destruct H as (a & _ & H); apply lbind_inv in H; destruct H as (x & _ & H)|]; cbn [lret snd] in H; apply Ok_inj in H; subst data; reflexivity.
  Qed.
End Values.
