(** Numerical waveforms: what a successful call has read, and the quasi-circular counterpart (C82, C83, C84, C90). *)
From Coq Require Import Qabs Lia Lqa.
From Verif Require Import Base BaseLemmas UtilsModel UtilsSpec UtilsLemmas DataModel HelperModel HelperSpec HelperLemmas LoadModel LoadSpec LoadLemmas LoadKeys LoadWave LoadLAL LoadZero LoadSpins.
Open Scope string_scope.
Open Scope nat_scope.

Lemma same_in_of def a b : same_keywords a b -> same_in def a b.
Proof.
  intros H. split; [unfold known; split; intros K k P; apply K; rewrite H in *; congruence|]. intros k. rewrite !slookup_app. now rewrite H.
Qed.

Section NR.
  Variable S : sources.
  Definition nr_kw (p : lkwargs) (a : option lv) (q : Q) (c1 c2 : list Q) (ano : option lv) : Prop :=
    forall k, k <> "ecc" -> slookup p k = slookup [("approximant", a); ("q", Some (ANum q)); ("chi1", Some (AVec c1)); ("chi2", Some (AVec c2)); ("mean_ano", ano)] k.
  Lemma nr_kw_same p ap q c1 c2 ma om : nr_kw p (Some (AStr ap)) q c1 c2 (Some ma) ->
    same_keywords (sset (sset (sset p "ecc" (Some (ANum 0))) "include_zero_ecc" (Some (ABool false))) "Momega0" (Some (ANum om))) (nr_circular ap q c1 c2 ma om).
  Proof.
    intros H k. rewrite !slookup_sset. destruct (String.eqb_spec k "Momega0") as [->|N1]; [reflexivity|]. destruct (String.eqb_spec k "include_zero_ecc") as [->|N2]; [reflexivity|].
    destruct (String.eqb_spec k "ecc") as [->|N3]; [reflexivity|]. rewrite (H k N3). unfold nr_circular, slookup. cbn [dlookup].
    rewrite (proj2 (String.eqb_neq k "ecc") N3), (proj2 (String.eqb_neq k "Momega0") N1), (proj2 (String.eqb_neq k "include_zero_ecc") N2). reflexivity.
  Qed.
  Lemma nr_off ap q c1 c2 ma om : exists v, asked "LAL" (nr_circular ap q c1 c2 ma om) "include_zero_ecc" v /\ on v = false.
  Proof. exists (Some (ABool false)). split; reflexivity. Qed.
  Lemma once_generates u ap q c1 c2 ma om w : same_keywords u (nr_circular ap q c1 c2 ma om) ->
    (exists k, load_LAL_once S u = Ok (k, w)) <-> generates S (nr_circular ap q c1 c2 ma om) (fst w) (snd w).
  Proof.
    intros E. rewrite (generates_once _ _ _ _ (nr_off _ _ _ _ _ _)). destruct w as [t d]. cbn [fst snd]. pose proof (same_in_of (published "LAL") _ _ E) as I.
    split; intros [k H]; [exact (once_same _ _ _ _ _ I H)|exact (once_same _ _ _ _ _ (same_in_sym _ _ _ I) H)].
  Qed.
  Lemma generates_fits u t d : generates S u t d -> fits t d.
  Proof.
    intros (fuel & data & H & T & D). destruct (lal_shape _ _ _ _ H) as (t' & d' & ph & dt & M & DD & m & dist & T' & D' & _ & F & _).
    unfold holds in *. rewrite T in T'. rewrite D in D'. apply Some_inj in T', D'. injection T' as <-. injection D' as <-. exact F.
  Qed.
  Lemma generates_uniform ap q c1 c2 ma om t d : generates S (nr_circular ap q c1 c2 ma om) t d -> uniform (1 # 10) t /\ merger_at_zero S t d.
  Proof.
    intros (fuel & data & H & T & D). destruct (lal_shape _ _ _ _ H) as (t' & d' & ph & dt & M & DD & m & dist & T' & D' & _ & _ & PH & DT & _ & _ & _ & U & MZ).
    unfold holds in *. rewrite T in T'. rewrite D in D'. apply Some_inj in T', D'. injection T' as <-. injection D' as <-.
    unfold asked in PH, DT. cbn in PH, DT. apply Some_inj in PH. subst ph. injection DT as <-. cbn [counts no] in U, MZ. split; [exact U|]. apply MZ. lra.
  Qed.
  Lemma from_front {A} (l : list A) i : 10 <= i -> from_index l (Z.of_nat i - 10) = skipn (i - 10) l.
  Proof. intros I. unfold from_index, norm_bound. destruct (Z.leb_spec 0 (Z.of_nat i - 10)); [|lia]. f_equal. lia. Qed.
  Lemma from_back {A} (l : list A) i : i < 10 -> from_index l (Z.of_nat i - 10) = skipn (length l - (10 - i)) l.
  Proof. intros I. unfold from_index, norm_bound. destruct (Z.leb_spec 0 (Z.of_nat i - 10)); [lia|]. f_equal. lia. Qed.
  Lemma mode_in {K} (d : mdict (list K)) lm v : mode_of d lm v -> In (lm, v) d.
  Proof.
    unfold mode_of. induction d as [|[k x] d IH]; cbn [dlookup]; [discriminate|]. destruct (mode_eqb lm k) eqn:E; [|intros H; right; now apply IH].
    intros H. apply Some_inj in H. subst x. left. unfold mode_eqb in E. apply Bool.andb_true_iff in E. destruct E as [E1 E2]. apply Z.eqb_eq in E1, E2. destruct lm, k. cbn [fst snd] in *. now subst.
  Qed.
  Lemma from_lookup (d : modes) z lm : dlookup mode_eqb (map (fun kv => (fst kv, from_index (snd kv) z)) d) lm = option_map (fun v => from_index v z) (dlookup mode_eqb d lm).
  Proof. induction d as [|[k v] d IH]; [reflexivity|]. cbn. destruct (mode_eqb lm k); [reflexivity|exact IH]. Qed.
  (** how many samples of the generated waveform are dropped *)
  Definition dropped (i n : nat) : nat := if 10 <=? i then i - 10 else n - (10 - i).
  Lemma from_dropped t d i : fits t d ->
    without_first (dropped i (length t)) t d (from_index t (Z.of_nat i - 10)) (map (fun kv => (fst kv, from_index (snd kv) (Z.of_nat i - 10))) d).
  Proof.
    intros F. unfold dropped. destruct (Nat.leb_spec 10 i) as [L|L].
    - split; [now apply from_front|]. split; [now rewrite map_map|]. intros lm v V. unfold mode_of. rewrite from_lookup, V. cbn [option_map]. now rewrite from_front.
    - split; [now apply from_back|]. split; [now rewrite map_map|]. intros lm v V. pose proof (F _ _ (mode_in _ _ _ V)) as LV. unfold mode_of. rewrite from_lookup, V. cbn [option_map].
      now rewrite from_back, LV.
  Qed.

  Lemma nr_zeroecc fuel t d p a q c1 c2 ano tz dz : nr_kw p a q c1 c2 ano -> snd (get_zeroecc_dataDict_for_nr S fuel t d p) = Ok (tz, dz) ->
    exists ap ma tm t0 z1 z2 f0 n tg dg i, a = Some (AStr ap) /\ ano = Some ma /\ peak_of S t d = Ok tm /\ starts t t0 /\ nth_error c1 2 = Some z1 /\ nth_error c2 2 = Some z2 /\
      so_freq S ((tm - t0) * (10 * so_mtsun S))%Q (q * 10 / (1 + q) * so_msun S)%Q (10 / (1 + q) * so_msun S)%Q z1 z2 = Ok f0 /\
      let om := (f0 * (10 * so_mtsun S) * np_pi)%Q in
      generates S (nr_circular ap q c1 c2 ma (tries (1 # 2) om n)) tg dg /\ no_later tg t0 /\
      (forall m, m < n -> exists t' d', generates S (nr_circular ap q c1 c2 ma (tries (1 # 2) om m)) t' d' /\ later t' t0) /\
      nearest tg t0 i /\ without_first (dropped i (length tg)) tg dg tz dz.
  Proof.
    intros K H. unfold get_zeroecc_dataDict_for_nr in H. apply lbind_inv in H. destruct H as (tm & TM & H). apply lbind_inv in H. destruct H as (t0 & T0 & H).
    apply lbind_inv in H. destruct H as (q' & Q' & H). apply lbind_inv in H. destruct H as (z1 & Z1 & H). apply lbind_inv in H. destruct H as (z2 & Z2 & H).
    apply lbind_inv in H. destruct H as (f0 & F0 & H). apply lbind_inv in H. destruct H as ([k1 w1] & O & H). apply lbind_inv in H. destruct H as (zz & _ & H).
    apply lbind_inv in H. destruct H as (u1 & _ & H). apply lbind_inv in H. destruct H as ([n w] & LG & H). apply lbind_inv in H. destruct H as (u2 & _ & H).
    apply lbind_inv in H. destruct H as (i & I & H). cbn [lift snd fst lret] in *. apply Ok_inj in H. injection H as <- <-.
    pose proof (K "q" ltac:(discriminate)) as Kq. pose proof (K "chi1" ltac:(discriminate)) as K1. pose proof (K "chi2" ltac:(discriminate)) as K2.
    pose proof (K "approximant" ltac:(discriminate)) as Ka. pose proof (K "mean_ano" ltac:(discriminate)) as Km. cbn in Kq, K1, K2, Ka, Km.
    apply num_get in Q'. rewrite !slookup_sset in Q'. cbn [String.eqb Ascii.eqb Bool.eqb] in Q'. rewrite Kq in Q'. injection Q' as <-.
    apply bind_ok in Z1. destruct Z1 as (v1 & V1 & Z1). apply bind_ok in Z1. destruct Z1 as (l1 & L1 & Z1). apply sget_ok in V1. rewrite !slookup_sset in V1. cbn [String.eqb Ascii.eqb Bool.eqb] in V1.
    rewrite K1 in V1. apply Some_inj in V1. subst v1. apply Ok_inj in L1. subst l1. apply get_ok in Z1.
    apply bind_ok in Z2. destruct Z2 as (v2 & V2 & Z2). apply bind_ok in Z2. destruct Z2 as (l2 & L2 & Z2). apply sget_ok in V2. rewrite !slookup_sset in V2. cbn [String.eqb Ascii.eqb Bool.eqb] in V2.
    rewrite K2 in V2. apply Some_inj in V2. subst v2. apply Ok_inj in L2. subst l2. apply get_ok in Z2.
    unfold time_dimless_to_mks in *. set (om := (f0 * (10 * so_mtsun S) * np_pi)%Q) in *.
    set (kz := sset (sset p "ecc" (Some (ANum 0))) "include_zero_ecc" (Some (ABool false))) in *.
    assert (AM : exists ap ma, a = Some (AStr ap) /\ ano = Some ma).
    { pose proof O as O'. unfold load_LAL_once in O'. apply bind_ok in O'. destruct O' as (x & X & O'). apply bind_ok in O'. destruct O' as ([] & Y & O').
      change lal_defaults with (published "LAL") in X. destruct (checked _ _ _ (published_nodup "LAL") X) as [_ L].
      apply bind_ok in O'. destruct O' as (ap & AP & _). apply str_get in AP. rewrite L, slookup_app in AP. unfold kz in AP. rewrite !slookup_sset in AP. cbn [String.eqb Ascii.eqb Bool.eqb] in AP.
      rewrite Ka in AP. apply Some_inj in AP.
      destruct (proj1 (raise_if_none_spec x _) Y "mean_ano" ltac:(cbn; tauto)) as [ma MA]. rewrite L, slookup_app in MA. unfold kz in MA. rewrite !slookup_sset in MA. cbn [String.eqb Ascii.eqb Bool.eqb] in MA.
      rewrite Km in MA. apply Some_inj in MA. eauto. }
    destruct AM as (ap & ma & -> & ->).
    assert (NT : forall m v, nth_try S (1 # 2) (sset kz "Momega0" (Some (ANum om))) om w1 m v <-> generates S (nr_circular ap q c1 c2 ma (tries (1 # 2) om m)) (fst v) (snd v)).
    { intros m v. destruct m as [|m]; cbn [nth_try].
      - change (tries (1 # 2) om 0) with om. rewrite <- (once_generates _ _ _ _ _ _ _ v (nr_kw_same p ap q c1 c2 ma om K)). fold kz. split; [intros ->; eauto|]. intros [k E]. congruence.
      - rewrite sset_sset. rewrite <- (once_generates _ _ _ _ _ _ _ v (nr_kw_same p ap q c1 c2 ma (tries (1 # 2) om (Datatypes.S m)) K)). fold kz. reflexivity. }
    assert (OM : slookup (sset kz "Momega0" (Some (ANum om))) "Momega0" = Some (Some (ANum om))) by (rewrite slookup_sset; reflexivity).
    destruct (longer_ok S (1 # 2) t0 _ _ _ _ _ _ OM LG) as (W & NL & _ & P). apply NT in W.
    exists ap, ma, tm, t0, z1, z2, f0, n, (fst w), (snd w), i. do 2 (split; [reflexivity|]). split; [exact TM|]. split; [now apply get_ok|]. do 3 (split; [assumption|]). cbv zeta.
    split; [exact W|]. split; [exact NL|]. split; [|split; [exact (argmin_nearest _ _ _ I)|exact (from_dropped _ _ _ (generates_fits _ _ _ W))]].
    intros m M. destruct (P m M) as (v & V & LV). exists (fst v), (snd v). split; [now apply NT|exact LV].
  Qed.
End NR.
