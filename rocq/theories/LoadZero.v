(** C81: the quasi-circular counterpart of a generated waveform. *)
From Coq Require Import Qabs Lia Lqa.
From Verif Require Import Base BaseLemmas UtilsModel UtilsSpec UtilsLemmas DataModel HelperModel HelperSpec LoadModel LoadSpec LoadLemmas LoadKeys LoadWave LoadLAL.
Open Scope string_scope.
Open Scope nat_scope.

Lemma sset_sset {V} (d : sdict V) k a b : sset (sset d k a) k b = sset d k b.
Proof.
  unfold sset. induction d as [|[k' v] d IH]; cbn [dset]; [now rewrite String.eqb_refl|].
  destruct (String.eqb k k') eqn:E; cbn [dset]; rewrite E; [reflexivity|now rewrite IH].
Qed.
Lemma tries_shift f om n : tries f (f * om)%Q n = tries f om (Datatypes.S n).
Proof. unfold tries. induction n as [|n IH]; [reflexivity|]. change (f * Nat.iter n (fun x => f * x) (f * om) = f * Nat.iter (Datatypes.S n) (fun x => f * x) om)%Q. now rewrite IH. Qed.

Section Zero.
  Variable S : sources.
  Lemma once_same a b ka ra : same_in (published "LAL") a b -> load_LAL_once S a = Ok (ka, ra) -> exists kb, load_LAL_once S b = Ok (kb, ra).
  Proof.
    intros E A. pose proof (once_alike S a b (same_alike_in _ _ _ _ _ E)) as R. rewrite A in R. destruct (load_LAL_once S b) as [[kb rb]|e]; cbn in R; [|contradiction].
    destruct R as [<- _]. eauto.
  Qed.
  Lemma same_in_sym def a b : same_in def a b -> same_in def b a.
  Proof. intros [K H]. split; [tauto|]. intros k. now rewrite H. Qed.

  (** the m-th waveform tried *)
  Definition nth_try (f : Q) (kw : lkwargs) (om : Q) (cur : list Q * modes) (m : nat) (w : list Q * modes) : Prop :=
    match m with O => w = cur | _ => exists k, load_LAL_once S (sset kw "Momega0" (Some (ANum (tries f om m)))) = Ok (k, w) end.
  Lemma next_try f kw om cur c1 k1 m w : load_LAL_once S (sset kw "Momega0" (Some (ANum (f * om)%Q))) = Ok (k1, c1) ->
    nth_try f (sset kw "Momega0" (Some (ANum (f * om)%Q))) (f * om)%Q c1 m w <-> nth_try f kw om cur (Datatypes.S m) w.
  Proof.
    intros O. destruct m as [|m]; cbn [nth_try].
    - change (tries f om 1) with (f * om)%Q. split; [intros ->; eauto|]. intros [k E]. congruence.
    - rewrite sset_sset, tries_shift. reflexivity.
  Qed.
  Lemma start_get (t : list Q) x : starts t x <-> get t 0 = Ok x.
  Proof. unfold starts. symmetry. apply get_ok. Qed.
  Lemma longer_ok f t0 : forall fuel kw om cur n w, slookup kw "Momega0" = Some (Some (ANum om)) -> longer S fuel f t0 kw cur = Ok (n, w) ->
    nth_try f kw om cur n w /\ no_later (fst w) t0 /\ n <= fuel /\ forall m, m < n -> exists v, nth_try f kw om cur m v /\ later (fst v) t0.
  Proof.
    induction fuel as [|fuel IH]; intros kw om cur n w OM H; cbn [longer] in H; apply bind_ok in H; destruct H as (z0 & Z & H); apply start_get in Z;
      destruct (Qlt_bool t0 z0) eqn:E.
    - discriminate.
    - apply Ok_inj in H. injection H as <- <-. apply Qlt_bool_false in E. split; [reflexivity|]. split; [exists z0; auto|]. split; [lia|]. intros m M. lia.
    - apply bind_ok in H. destruct H as (om' & O & H). apply num_get in O. rewrite OM in O. apply Some_inj, Some_inj in O. injection O as <-.
      apply bind_ok in H. destruct H as ([k1 c1] & O1 & H). apply bind_ok in H. destruct H as ([n' w'] & L & H). cbn [fst snd] in L, H. apply Ok_inj in H. injection H as <- <-.
      apply Qlt_bool_iff in E. assert (OM' : slookup (sset kw "Momega0" (Some (ANum (f * om)%Q))) "Momega0" = Some (Some (ANum (f * om)%Q))) by (rewrite slookup_sset; reflexivity).
      destruct (IH _ _ _ _ _ OM' L) as (A & B & C & D). pose proof (fun m v => next_try f kw om cur c1 k1 m v O1) as N.
      split; [now apply N|]. split; [exact B|]. split; [lia|]. intros m M. destruct m as [|m]; [exists cur; split; [reflexivity|exists z0; auto]|].
      destruct (D m ltac:(lia)) as (v & V & LV). exists v. split; [now apply N|exact LV].
    - apply Ok_inj in H. injection H as <- <-. apply Qlt_bool_false in E. split; [reflexivity|]. split; [exists z0; auto|]. split; [lia|]. intros m M. lia.
  Qed.
  Lemma longer_total f t0 : forall n fuel kw om cur w, slookup kw "Momega0" = Some (Some (ANum om)) -> n <= fuel ->
    nth_try f kw om cur n w -> no_later (fst w) t0 -> (forall m, m < n -> exists v, nth_try f kw om cur m v /\ later (fst v) t0) ->
    longer S fuel f t0 kw cur = Ok (n, w).
  Proof.
    induction n as [|n IH]; intros fuel kw om cur w OM F W (x & X & LX) D.
    - cbn [nth_try] in W. subst w. apply start_get in X. destruct fuel; cbn [longer]; rewrite X; cbn [bind]; now rewrite (proj2 (Qlt_bool_false t0 x) LX).
    - destruct fuel as [|fuel]; [lia|]. destruct (D 0 ltac:(lia)) as (v & V & (y & Y & LY)). cbn [nth_try] in V. subst v. apply start_get in Y.
      cbn [longer]. rewrite Y. cbn [bind]. rewrite (proj2 (Qlt_bool_iff t0 y) LY). rewrite (proj2 (sget_ok kw "Momega0" _) OM). cbn [bind num].
      assert (O1 : exists k1 c1, load_LAL_once S (sset kw "Momega0" (Some (ANum (f * om)%Q))) = Ok (k1, c1)).
      { destruct n as [|n]; [destruct W as [k W]; eauto|]. destruct (D 1 ltac:(lia)) as (v & [k V] & _). eauto. }
      destruct O1 as (k1 & c1 & O1). rewrite O1. cbn [bind snd]. pose proof (fun m v => next_try f kw om cur c1 k1 m v O1) as N.
      rewrite (IH fuel _ (f * om)%Q c1 w); [reflexivity|rewrite slookup_sset; reflexivity|lia|now apply N|exists x; auto|].
      intros m M. destruct (D (Datatypes.S m) ltac:(lia)) as (v & V & LV). exists v. split; [now apply N|exact LV].
  Qed.

  (** the keywords of a try, completed or not *)
  Lemma plain_load fuel u kw t d v : load_LAL_once S u = Ok (kw, (t, d)) -> slookup kw "include_zero_ecc" = Some v -> on v = false ->
    load_LAL_waveform S fuel u = Ok [("t", DTime t); ("hlm", DModes d)].
  Proof. intros O V F. unfold load_LAL_waveform. rewrite O. cbn [bind]. unfold has_true. rewrite (proj2 (sget_ok kw _ _) V). cbn [bind]. now rewrite F. Qed.
  Lemma generates_once u t d : (exists v, asked "LAL" u "include_zero_ecc" v /\ on v = false) ->
    generates S u t d <-> exists kw, load_LAL_once S u = Ok (kw, (t, d)).
  Proof.
    intros (v & A & F). unfold generates. split.
    - intros (fuel & data & H & T & D). unfold load_waveform in H. cbn [String.eqb Ascii.eqb Bool.eqb lift snd] in H. apply lal_data in H.
      destruct H as (kw & t' & d' & O & T' & D'). unfold holds in *. rewrite T in T'. rewrite D in D'. apply Some_inj in T', D'. injection T' as <-. injection D' as <-. eauto.
    - intros (kw & O). exists 0, [("t", DTime t); ("hlm", DModes d)]. split; [|split; reflexivity]. unfold load_waveform. cbn [String.eqb Ascii.eqb Bool.eqb lift snd].
      apply (plain_load 0 u kw t d v O); [|exact F]. destruct (once_ok _ _ _ _ O) as [C _]. destruct (checked _ _ _ (published_nodup "LAL") C) as [_ L]. now rewrite L.
  Qed.
  Lemma circular_off u e om : exists v, asked "LAL" (circular u e om) "include_zero_ecc" v /\ on v = false.
  Proof. exists (Some (ABool false)). split; [|reflexivity]. unfold asked, circular. rewrite slookup_app, slookup_sset. reflexivity. Qed.
  Lemma known_published_set u k v : slookup (published "LAL") k <> None -> known u (published "LAL") -> known (sset u k v) (published "LAL").
  Proof. intros P K k' H. rewrite slookup_sset in H. destruct (String.eqb_spec k' k) as [E|E]; [now rewrite E|now apply K]. Qed.
  Lemma circular_same u kw e om : check_kwargs_and_set_defaults (Some u) (published "LAL") = Ok kw ->
    same_in (published "LAL") (sset (sset (sset kw "ecc" (Some (ANum e))) "include_zero_ecc" (Some (ABool false))) "Momega0" (Some (ANum om))) (circular u e om).
  Proof.
    intros C. destruct (checked _ _ _ (published_nodup "LAL") C) as [K L]. unfold circular. split.
    - assert (Kk : known kw (published "LAL")).
      { intros k H. rewrite L, slookup_app in H. destruct (slookup u k) eqn:E; [apply K; congruence|exact H]. }
      split; intros _; repeat (apply known_published_set; [discriminate|]); assumption.
    - intros k. rewrite !slookup_app, !slookup_sset, L, slookup_app.
      destruct (String.eqb k "Momega0") eqn:E1; destruct (String.eqb k "include_zero_ecc") eqn:E2; destruct (String.eqb k "ecc") eqn:E3; try reflexivity.
      + apply String.eqb_eq in E1, E2. subst. discriminate.
      + apply String.eqb_eq in E1, E2. subst. discriminate.
      + destruct (slookup u k); [reflexivity|]. destruct (slookup (published "LAL") k); reflexivity.
  Qed.
  Lemma circular_start u kw e om : check_kwargs_and_set_defaults (Some u) (published "LAL") = Ok kw -> asked "LAL" u "Momega0" (Some (ANum om)) ->
    same_in (published "LAL") (sset (sset kw "ecc" (Some (ANum e))) "include_zero_ecc" (Some (ABool false))) (circular u e om).
  Proof.
    intros C A. destruct (circular_same u kw e om C) as [K H]. destruct (checked _ _ _ (published_nodup "LAL") C) as [Ku L]. split.
    - split; intros K1.
      + apply K. apply known_published_set; [discriminate|exact K1].
      + intros k P. apply (proj2 K K1 k). rewrite slookup_sset. destruct (String.eqb k "Momega0"); [discriminate|exact P].
    - intros k. rewrite <- H. rewrite !slookup_app, !slookup_sset. destruct (String.eqb_spec k "Momega0") as [->|N]; [|reflexivity]. cbn [String.eqb Ascii.eqb Bool.eqb].
      rewrite L. unfold asked in A. now rewrite A.
  Qed.
  Lemma nth_try_generates u kw e om cur k0 m w : check_kwargs_and_set_defaults (Some u) (published "LAL") = Ok kw -> asked "LAL" u "Momega0" (Some (ANum om)) ->
    let kz := sset (sset kw "ecc" (Some (ANum e))) "include_zero_ecc" (Some (ABool false)) in
    load_LAL_once S kz = Ok (k0, cur) ->
    nth_try (9 # 10) kz om cur m w <-> generates S (circular u e (tries (9 # 10) om m)) (fst w) (snd w).
  Proof.
    intros C A kz O. rewrite (generates_once _ _ _ (circular_off _ _ _)). destruct w as [t d]. cbn [fst snd]. destruct m as [|m]; cbn [nth_try].
    - change (tries (9 # 10) om 0) with om. destruct (once_same _ _ _ _ (circular_start u kw e om C A) O) as [kb B]. split; [intros ->; eauto|]. intros [k E]. congruence.
    - pose proof (circular_same u kw e (tries (9 # 10) om (Datatypes.S m)) C) as E. split; intros [k H]; [exact (once_same _ _ _ _ E H)|exact (once_same _ _ _ _ (same_in_sym _ _ _ E) H)].
  Qed.

  (** ** C81 *)
  Lemma off_same u kw : check_kwargs_and_set_defaults (Some u) (published "LAL") = Ok kw -> known u (published "LAL").
  Proof. intros C. exact (proj1 (checked _ _ _ (published_nodup "LAL") C)). Qed.
  Lemma zero_found fuel u data : snd (load_waveform S fuel "LAL" u) = Ok data -> wanted "LAL" u "include_zero_ecc" ->
    exists a om t d tz dz t0 n, asked "LAL" u "approximant" (Some (AStr a)) /\ asked "LAL" u "Momega0" (Some (ANum om)) /\
      holds data "t" (DTime t) /\ holds data "hlm" (DModes d) /\ holds data "t_zeroecc" (DTime tz) /\ holds data "hlm_zeroecc" (DModes dz) /\
      starts t t0 /\ no_later tz t0 /\ generates S (circular u (zero_for a) (tries (9 # 10) om n)) tz dz /\
      forall m, m < n -> exists tm dm, generates S (circular u (zero_for a) (tries (9 # 10) om m)) tm dm /\ later tm t0.
  Proof.
    unfold load_waveform. cbn [String.eqb Ascii.eqb Bool.eqb lift snd]. unfold load_LAL_waveform. intros H (vz & AZ & ON).
    apply bind_ok in H. destruct H as ([kw [t d]] & O & H). destruct (once_ok _ _ _ _ O) as (C & r & R & _). destruct (checked _ _ _ (published_nodup "LAL") C) as [_ L].
    unfold has_true in H. assert (Z : sget kw "include_zero_ecc" = Ok vz) by (apply sget_ok; rewrite L; exact AZ). rewrite Z in H. cbn [bind] in H. change (counts vz) with (on vz) in ON. rewrite ON in H.
    apply bind_ok in H. destruct H as (a & A & H). apply bind_ok in H. destruct H as ([k1 w1] & F & H). apply bind_ok in H. destruct H as (t0 & T & H).
    apply bind_ok in H. destruct H as ([n w] & LG & H). cbn [fst snd] in LG, H. apply Ok_inj in H. subst data. apply str_get in A.
    destruct R as (_ & _ & _ & _ & _ & Ro & _). fold (zero_for a) in F, LG.
    assert (OM : asked "LAL" u "Momega0" (Some (ANum (la_om r)))) by (apply (reads_asked u kw); assumption).
    assert (OM' : slookup (sset (sset kw "ecc" (Some (ANum (zero_for a)))) "include_zero_ecc" (Some (ABool false))) "Momega0" = Some (Some (ANum (la_om r)))) by (rewrite !slookup_sset; exact Ro).
    destruct (longer_ok (9 # 10) t0 _ _ _ _ _ _ OM' LG) as (W & NL & _ & P). pose proof (fun m v => nth_try_generates u kw (zero_for a) (la_om r) w1 k1 m v C OM F) as N.
    exists a, (la_om r), t, d, (fst w), (snd w), t0, n. split; [now apply (reads_asked u kw)|]. split; [exact OM|]. do 4 (split; [reflexivity|]).
    split; [now apply start_get|]. split; [exact NL|]. split; [now apply N|]. intros m M. destruct (P m M) as (v & V & LV). exists (fst v), (snd v). split; [now apply N|exact LV].
  Qed.
  Lemma off_known u : known u (published "LAL") <-> known (sset u "include_zero_ecc" (Some (ABool false))) (published "LAL").
  Proof.
    split; [apply known_published_set; discriminate|]. intros K k P. apply K. rewrite slookup_sset. destruct (String.eqb k "include_zero_ecc"); [discriminate|exact P].
  Qed.
  Lemma once_off u t d : (exists kw, load_LAL_once S (sset u "include_zero_ecc" (Some (ABool false))) = Ok (kw, (t, d))) <-> exists kw, load_LAL_once S u = Ok (kw, (t, d)).
  Proof.
    assert (K : forall a b, (forall k, k <> "include_zero_ecc" -> slookup (a ++ published "LAL")%list k = slookup (b ++ published "LAL")%list k) -> (known a (published "LAL") -> known b (published "LAL")) ->
                (exists kw, load_LAL_once S a = Ok (kw, (t, d))) -> exists kw, load_LAL_once S b = Ok (kw, (t, d))).
    { intros a b E KK [kw O]. unfold load_LAL_once in *. change lal_defaults with (published "LAL") in *. apply bind_ok in O. destruct O as (x & X & O).
      destruct (checked _ _ _ (published_nodup "LAL") X) as [Ka La]. destruct (checked_total _ _ (KK Ka)) as [y Y]. destruct (checked _ _ _ (published_nodup "LAL") Y) as [_ Lb].
      rewrite Y. cbn [bind]. assert (G : forall k, k <> "include_zero_ecc" -> sget x k = sget y k).
      { intros k N. specialize (E k N). rewrite <- La, <- Lb in E. unfold sget, dget, slookup in *. now rewrite E. }
      assert (RR : raise_exception_if_none y ["approximant"; "q"; "chi1"; "chi2"; "ecc"; "mean_ano"; "Momega0"] = raise_exception_if_none x ["approximant"; "q"; "chi1"; "chi2"; "ecc"; "mean_ano"; "Momega0"]).
      { cbn [raise_exception_if_none]. now rewrite (G "approximant"), (G "q"), (G "chi1"), (G "chi2"), (G "ecc"), (G "mean_ano"), (G "Momega0") by discriminate. }
      rewrite RR. unfold has_true in *.
      rewrite (G "approximant"), (G "q"), (G "chi1"), (G "chi2"), (G "ecc"), (G "mean_ano"), (G "Momega0"), (G "deltaTOverM"), (G "physicalUnits"), (G "M"), (G "D") in O by discriminate.
      repeat (apply bind_ok in O; let z := fresh "z" in let Ez := fresh "Ez" in destruct O as (z & Ez & O); rewrite Ez; cbn [bind]).
      apply Ok_inj in O. injection O as _ ->. eauto. }
    split; apply K; try apply off_known; intros k N; rewrite !slookup_app, slookup_sset; destruct (String.eqb_spec k "include_zero_ecc"); try contradiction; reflexivity.
  Qed.
  Lemma zero_ends fuel u a om t d t0 n tz dz : wanted "LAL" u "include_zero_ecc" -> asked "LAL" u "approximant" (Some (AStr a)) -> asked "LAL" u "Momega0" (Some (ANum om)) ->
    generates S (sset u "include_zero_ecc" (Some (ABool false))) t d -> starts t t0 -> n <= fuel ->
    (forall m, m < n -> exists tm dm, generates S (circular u (zero_for a) (tries (9 # 10) om m)) tm dm /\ later tm t0) ->
    generates S (circular u (zero_for a) (tries (9 # 10) om n)) tz dz -> no_later tz t0 ->
    snd (load_waveform S fuel "LAL" u) = Ok [("t", DTime t); ("hlm", DModes d); ("t_zeroecc", DTime tz); ("hlm_zeroecc", DModes dz)].
  Proof.
    intros (vz & AZ & ON) A OM G T F P GN NL. rewrite generates_once in G.
    2: { exists (Some (ABool false)). split; [|reflexivity]. unfold asked. rewrite slookup_app, slookup_sset. reflexivity. }
    apply (proj1 (once_off u t d)) in G. destruct G as [kw O]. destruct (once_ok _ _ _ _ O) as (C & _). destruct (checked _ _ _ (published_nodup "LAL") C) as [_ L].
    unfold load_waveform. cbn [String.eqb Ascii.eqb Bool.eqb lift snd]. unfold load_LAL_waveform. rewrite O. cbn [bind]. unfold has_true.
    rewrite (proj2 (sget_ok kw "include_zero_ecc" vz)) by (rewrite L; exact AZ). cbn [bind]. change (counts vz) with (on vz) in ON. rewrite ON.
    rewrite (proj2 (sget_ok kw "approximant" (Some (AStr a)))) by (rewrite L; exact A). cbn [bind str]. fold (zero_for a).
    assert (F0 : exists k1 w1, load_LAL_once S (sset (sset kw "ecc" (Some (ANum (zero_for a)))) "include_zero_ecc" (Some (ABool false))) = Ok (k1, w1)).
    { assert (G0 : exists t1 d1, generates S (circular u (zero_for a) om) t1 d1).
      { destruct n as [|n]; [eauto|]. destruct (P 0 ltac:(lia)) as (tm & dm & X & _). eauto. }
      destruct G0 as (t1 & d1 & G0). rewrite generates_once in G0 by apply circular_off. destruct G0 as [k G0].
      destruct (once_same _ _ _ _ (same_in_sym _ _ _ (circular_start u kw (zero_for a) om C OM)) G0) as [kb B]. eauto. }
    destruct F0 as (k1 & w1 & F0). rewrite F0. cbn [bind snd]. rewrite (proj1 (start_get t t0) T). cbn [bind].
    pose proof (fun m v => nth_try_generates u kw (zero_for a) om w1 k1 m v C OM F0) as N.
    rewrite (longer_total (9 # 10) t0 n fuel _ om w1 (tz, dz)); [reflexivity| |exact F|now apply N|exact NL|].
    - rewrite !slookup_sset. cbn [String.eqb Ascii.eqb Bool.eqb]. rewrite L. exact OM.
    - intros m M. destruct (P m M) as (tm & dm & X & LX). exists (tm, dm). split; [now apply N|exact LX].
  Qed.
End Zero.
