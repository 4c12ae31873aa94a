(** Residual methods need zeroecc data. *)
From Verif Require Import Base BaseLemmas UtilsModel UtilsSpec UtilsLemmas ExtremaModel RationalModel MeasureModel MeasureSpec LevelLemmas
  SegmentModel DataModel DataSpec DataLemmas DataLemmas2 InitModel InitSpec InitLemmas.
Open Scope string_scope.
Open Scope nat_scope.

Section D.
  Variable C : Type.
  Variables (cabs cphase : C -> list Q) (cpolar : list Q -> list Q -> res C) (rotate : list Q -> list C -> res (list C)) (qsqrt : Q -> Q).
  Notation heap := (heap C). Notation dval := (dval C).
  Notation trans := (transform_inertial_to_coprecessing C cabs cphase cpolar rotate).
  Notation readw := (read_waveform C cabs cphase cpolar rotate qsqrt).
  Notation process := (process_data_dict C cabs cphase cpolar rotate qsqrt).

  Definition ampz {A} (d : sdict A) : Prop := has d "hlm_zeroecc" \/ has d "amplm_zeroecc".
  Definition omz {A} (d : sdict A) : Prop := has d "hlm_zeroecc" \/ has d "phaselm_zeroecc" \/ has d "omegalm_zeroecc".
  Definition zpart {A B} (d0 : sdict A) (d : sdict B) : Prop :=
    (has d "t_zeroecc" -> has d0 "t_zeroecc") /\ (ampz d -> ampz d0) /\ (omz d -> omz d0).
  Lemma zpart_trans {X Y Z} (a : sdict X) (b : sdict Y) (c : sdict Z) : zpart a b -> zpart b c -> zpart a c.
  Proof. unfold zpart. tauto. Qed.
  Lemma zpart_sub {X Y} (a : sdict X) (b : sdict Y) : (forall k, has b k -> k = "hlm" \/ has a k) -> zpart a b.
  Proof.
    intros H. unfold zpart, ampz, omz. split; [|split]; intros K;
    repeat match goal with H : _ \/ _ |- _ => destruct H end;
    match goal with H2 : has b _ |- _ => destruct (H _ H2); [discriminate|tauto] end.
  Qed.
  Lemma has_spop {A} (d : sdict A) k k' : has (spop d k) k' -> has d k'.
  Proof.
    rewrite !has_mem. unfold smem, dmem, spop. induction d as [|[x v] d IH]; [auto|]. cbn [dpop dlookup].
    destruct (String.eqb k x); cbn [dlookup]; destruct (String.eqb k' x); auto.
  Qed.
  Lemma has_sset {A} (d : sdict A) k v k' : has (sset d k v) k' -> k' = k \/ has d k'.
  Proof.
    rewrite !has_mem. unfold smem, dmem. fold (slookup (sset d k v) k'). rewrite slookup_sset.
    destruct (String.eqb k' k) eqn:E; [apply String.eqb_eq in E; auto|]. auto.
  Qed.
  Lemma has_dupdate {A} (e d : sdict A) k : has (dupdate String.eqb d e) k -> has e k \/ has d k.
  Proof.
    revert d. unfold dupdate. induction e as [|[x v] e IH]; intros d; cbn; [auto|]. intros H. apply IH in H. destruct H as [H|H].
    - left. unfold has in *. cbn. auto.
    - fold (sset d x v) in H. apply has_sset in H. destruct H as [-> |H]; [|auto]. left. unfold has. cbn. auto.
  Qed.
  Lemma has_deepcopy h (d : sdict dval) k : has (deepcopy C h d) k -> has d k.
  Proof. unfold has. now rewrite deepcopy_keys. Qed.
  Lemma amp_zero h (d : sdict dval) z : amplm_for C cabs h d "_zeroecc" = Ok z -> z <> [] -> ampz d.
  Proof.
    unfold amplm_for, ampz. cbn [append]. intros H Hz. destruct (slookup d "amplm_zeroecc") eqn:E; [right; eapply has_lookup; eauto|].
    destruct (slookup d "hlm_zeroecc") eqn:E2; [left; eapply has_lookup; eauto|]. cbn in H. apply Ok_inj in H. now subst.
  Qed.
  Lemma phase_zero h (d : sdict dval) z : phaselm_for C cphase h d "_zeroecc" = Ok z -> z <> [] -> omz d.
  Proof.
    unfold phaselm_for, omz. cbn [append]. intros H Hz. destruct (slookup d "phaselm_zeroecc") eqn:E; [right; left; eapply has_lookup; eauto|].
    destruct (slookup d "hlm_zeroecc") eqn:E2; [left; eapply has_lookup; eauto|]. cbn in H. apply Ok_inj in H. now subst.
  Qed.
  Lemma hlm_zero h (d : sdict dval) e : (do a <- get_amplm_from_dataDict C cabs h d; do p <- get_phaselm_from_dataDict C cphase h d;
      get_hlm_from_amplm_phaselm C cpolar h a p) = Ok e -> has e "hlm_zeroecc" -> ampz d /\ omz d.
  Proof.
    intros H He. apply bind_ok in H. destruct H as (a & Ea & H). apply bind_ok in H. destruct H as (p & Ep & H).
    apply amplm_shape in Ea. destruct Ea as (a0 & az & _ & Ea & ->). apply phaselm_shape in Ep. destruct Ep as (p0 & pz & _ & Ep & ->).
    unfold get_hlm_from_amplm_phaselm in H. apply bind_ok in H. destruct H as (e0 & E0 & H).
    destruct az as [|x az].
    { exfalso. cbn [smem dmem dlookup opt_entry] in H. cbn in H. apply Ok_inj in H. subst e. clear Ep. cbn in E0. destruct a0 as [|y a0].
      - apply Ok_inj in E0. subst e0. cbn in He. unfold has in He. cbn in He. intuition discriminate.
      - repeat (apply bind_ok in E0; destruct E0 as (? & _ & E0)). apply Ok_inj in E0. subst e0. unfold has in He. cbn in He. intuition discriminate. }
    split; [apply (amp_zero h d (x :: az)); [exact Ea|discriminate]|].
    destruct pz as [|y pz]; [|apply (phase_zero h d (y :: pz)); [exact Ep|discriminate]]. exfalso.
    cbn in H. discriminate H.
  Qed.
  Lemma trans_zero level pl tag h h' w d r : top_of C h pl = Ok d -> tag = "" \/ tag = "_zeroecc" ->
    trans level pl tag h = (h', (w, Ok r)) -> zpart d r.
  Proof.
    intros Hd Ht H. unfold transform_inertial_to_coprecessing in H. rewrite (step_read _ _ _ _ d) in H by exact Hd.
    apply mbind_ok in H. destruct H as [h1 [w1 [w2 [d1 [E [H _]]]]]].
    apply zpart_trans with d1; [clear H|].
    2:{ apply zpart_sub. intros k Hk. right. destruct (smem d1 _).
        - apply mbind_ok in H. destruct H as [h2 [w3 [w4 [u [X [H _]]]]]]. apply ret_ok in H. destruct H as (_ & _ & ->). now apply has_spop in Hk.
        - apply ret_ok in H. destruct H as (_ & _ & ->). exact Hk. }
    destruct (smem d ("hlm" ++ tag)) eqn:Em.
    - apply read_ok in E. destruct E as (_ & _ & E). apply copre_ok in E. destruct E as (m & -> & _ & E3).
      apply zpart_sub. intros k Hk. apply has_sset in Hk. destruct Hk as [-> |Hk]; [auto|]. apply has_deepcopy in Hk. auto.
    - apply mbind_ok in E. destruct E as [h2 [w3 [w4 [hlm [E [H _]]]]]]. apply read_ok in E. destruct E as (-> & _ & E).
      destruct (update_ok C pl hlm h d Hd) as [h3 [pl3 [U1 [U2 U3]]]].
      rewrite (step_ok _ _ _ _ _ _ U1) in H. rewrite (step_read _ _ _ _ _ U2) in H.
      apply mbind_ok in H. destruct H as [h5 [w9 [w10 [d3 [E4 [H _]]]]]]. apply read_ok in E4. destruct E4 as (-> & _ & E4).
      apply mbind_ok in H. destruct H as [h6 [w11 [w12 [u [X [H _]]]]]]. apply ret_ok in H. destruct H as (_ & _ & ->).
      apply copre_ok in E4. destruct E4 as (m & -> & _ & E6).
      assert (S : forall k, has (spop (spop (sset (deepcopy C h3 (dupdate String.eqb d hlm)) ("hlm" ++ tag) (VCplx C m)) ("amplm" ++ tag)) ("phaselm" ++ tag)) k ->
                has hlm k \/ has d k).
      { intros k Hk. apply has_spop, has_spop, has_sset in Hk. apply has_dupdate. destruct Hk as [-> |Hk]; [exact E6|]. now apply has_deepcopy in Hk. }
      assert (K : forall k, has hlm k -> k = "hlm" \/ (k = "hlm_zeroecc" /\ ampz d /\ omz d)).
      { intros k Hk. pose proof E as E'. apply bind_ok in E. destruct E as (a & _ & E). apply bind_ok in E. destruct E as (p & _ & E).
        apply hlm_keys in E. pose proof Hk as Hk'. unfold has in Hk. rewrite E in Hk.
        destruct (smem a _); cbn in Hk; [|destruct Hk as [<- |[]]; auto]. destruct Hk as [<- |[<- |[]]]; [auto|]. right.
        split; [reflexivity|]. now apply (hlm_zero h d hlm). }
      unfold zpart. split; [|split]; [intros Hk|intros [Hk|Hk]|intros [Hk|[Hk|Hk]]]; apply S in Hk; destruct Hk as [Hk|Hk];
        try (apply K in Hk; destruct Hk as [Hk|(Hk & ? & ?)]; [discriminate|]); try discriminate; try assumption; unfold ampz, omz; auto.
  Qed.
  Lemma apo_zero h (d : sdict dval) r : get_amp_phase_omega_data C cabs cphase h d = Ok r ->
    (has r "amplm_zeroecc" -> ampz d) /\ (has r "omegalm_zeroecc" -> omz d) /\ ~ has r "t_zeroecc".
  Proof.
    unfold get_amp_phase_omega_data. intros H. apply bind_ok in H. destruct H as (a & Ea & H). apply bind_ok in H. destruct H as (p & Ep & H).
    apply amplm_shape in Ea. destruct Ea as (a0 & az & _ & Ea & ->). apply phaselm_shape in Ep. destruct Ep as (p0 & pz & _ & Ep & ->).
    cbv zeta in H. apply bind_ok in H. destruct H as (pm & _ & H). apply bind_ok in H. destruct H as (om & _ & H).
    apply bind_ok in H. destruct H as (z & Ez & H). apply Ok_inj in H. subst r.
    assert (Kz : z <> [] -> omz d /\ map fst z = ["omegalm_zeroecc"]).
    { intros NE. destruct (slookup d "omegalm_zeroecc") as [v|] eqn:E.
      - apply Ok_inj in Ez. subst z. split; [|reflexivity]. right; right. eapply has_lookup; eauto.
      - destruct pz as [|y pz].
        { exfalso. replace (slookup _ "phaselm_zeroecc") with (@None dval) in Ez by (destruct az; reflexivity). apply Ok_inj in Ez. now subst. }
        assert (O : omz d) by (apply (phase_zero h d (y :: pz)); [exact Ep|discriminate]). split; [exact O|].
        destruct (slookup _ "phaselm_zeroecc") in Ez; [|apply Ok_inj in Ez; now subst].
        destruct (slookup d "t_zeroecc"); [|apply Ok_inj in Ez; now subst].
        repeat (apply bind_ok in Ez; destruct Ez as (? & _ & Ez)). apply Ok_inj in Ez. now subst. }
    assert (Kaz : az <> [] -> ampz d) by (intros NE; now apply (amp_zero h d az)).
    unfold has. rewrite !map_app. cbn [map fst]. unfold opt_entry.
    destruct az as [|xa az]; [|specialize (Kaz ltac:(discriminate))]; destruct pz; destruct z as [|xz z]; try (specialize (Kz ltac:(discriminate)); destruct Kz as [Kz1 Kz2]; rewrite Kz2);
      cbn; (split; [|split]); intuition (try discriminate; auto).
  Qed.
  Lemma read_zero level precessing frame p h h1 w f : readw level precessing frame p h = (h1, (w, Ok f)) ->
    exists d0, is_dict h p d0 /\ (has (f_dict C f) "t_zeroecc" -> has (f_dict C f) "amplm_zeroecc" -> has (f_dict C f) "omegalm_zeroecc" ->
      has_zeroecc d0).
  Proof.
    intros H. rewrite readw_eq in H. apply mbind_ok in H. destruct H as [h2 [w3 [w4 [d0 [E [E2 _]]]]]].
    apply read_ok in E. destruct E as [-> [-> E]]. exists d0. pose proof E as Top. apply top_ok in E. split; [exact E|].
    apply mbind_ok in E2. destruct E2 as [h3 [w5 [w6 [[] [E3 [E4 _]]]]]]. apply lift_ok in E3. destruct E3 as [-> [-> E3]].
    apply mbind_ok in E4. destruct E4 as [h4 [w7 [w8 [d [E4 [E5 _]]]]]].
    assert (Z : zpart d0 d).
    { unfold chosen in E4. destruct (_ && _).
      - apply mbind_ok in E4. destruct E4 as [h5 [w9 [w10 [u [X [E4 _]]]]]]. apply log_ok in X. destruct X as [-> _].
        apply mbind_ok in E4. destruct E4 as [h6 [w11 [w12 [d1 [X [E4 _]]]]]].
        eapply trans_zero in X; [|exact Top|auto].
        destruct (_ || _) in E4.
        + eapply trans_zero in E4; [|reflexivity|auto]. eapply zpart_trans; eauto.
        + apply ret_ok in E4. destruct E4 as (_ & _ & ->). exact X.
      - apply ret_ok in E4. destruct E4 as (_ & _ & ->). apply zpart_sub. auto. }
    intros H1 H2 H3. unfold rest in E5. apply mbind_ok in E5. destruct E5 as [h5 [w9 [w10 [t [X [E5 _]]]]]].
    apply mbind_ok in E5. destruct E5 as [h6 [w11 [w12 [apo [X2 [E5 _]]]]]]. apply read_ok in X2. destruct X2 as (_ & _ & X2).
    apply read_ok in E5. destruct E5 as (_ & _ & E5).
    assert (D : f_dict C f = (("t", VArr C t) :: match slookup d "t_zeroecc" with Some v => [("t_zeroecc", v)] | None => [] end ++ apo)%list).
    { apply mdata_ok in E5. destruct E5 as (i & o & om & p0 & _ & _ & _ & _ & _ & _ & _ & _ & _ & D & _). exact D. }
    rewrite D in H1, H2, H3. apply apo_zero in X2. destruct X2 as (A1 & A2 & A3).
    assert (HT : has d "t_zeroecc").
    { destruct (slookup d "t_zeroecc") eqn:ET; [eapply has_lookup; eauto|]. unfold has in H1, A3. cbn in H1. destruct H1; [discriminate|contradiction]. }
    assert (HA : has apo "amplm_zeroecc" /\ has apo "omegalm_zeroecc").
    { unfold has in *. cbn [map fst] in H2, H3. rewrite map_app in H2, H3.
      destruct (slookup d "t_zeroecc"); cbn in H2, H3; intuition discriminate. }
    destruct Z as (Z1 & Z2 & Z3). unfold has_zeroecc. split; [auto|]. split; [apply Z2, A1, HA|apply Z3, A2, HA].
  Qed.
  Lemma process_zero level precessing frame num p h h1 w f : process level precessing frame num p h = (h1, (w, Ok f)) ->
    exists d0, is_dict h p d0 /\ (has (p_dict C f) "t_zeroecc" -> has (p_dict C f) "amplm_zeroecc" -> has (p_dict C f) "omegalm_zeroecc" ->
      has_zeroecc d0).
  Proof.
    intros H. rewrite process_reads in H. apply mbind_ok in H. destruct H as [h2 [w3 [w4 [fl [E [E2 _]]]]]].
    pose proof (readw_ok _ _ _ _ _ _ _ _ _ _ _ _ _ _ E) as (d1 & d & t & tz & a & az & ph & pz & om & z & _ & _ & _ & _ & _ & _ & _ & Hd & Ht & _).
    apply read_zero in E. destruct E as (d0 & D & K). exists d0. split; [exact D|].
    apply mbind_ok in E2. destruct E2 as [h3 [w5 [w6 [nd [E3 [E4 _]]]]]]. apply ret_ok in E4. destruct E4 as (_ & _ & ->). cbn [p_dict].
    assert (S : forall k, In k ["t_zeroecc"; "amplm_zeroecc"; "omegalm_zeroecc"] -> slookup nd k = slookup (f_dict C fl) k).
    { intros k Hk. destruct num as [n|].
      - eapply truncate_ok in E3; eauto. destruct E3 as (_ & _ & idx & _ & _ & _ & _ & _ & E3). apply E3. cbn in *. intuition (subst; discriminate).
      - apply ret_ok in E3. destruct E3 as (_ & _ & ->). reflexivity. }
    intros H1 H2 H3. apply K.
    - apply lookup_has in H1. destruct H1 as [v H1]. rewrite S in H1 by (cbn; auto). eapply has_lookup; eauto.
    - apply lookup_has in H2. destruct H2 as [v H2]. rewrite S in H2 by (cbn; auto). eapply has_lookup; eauto.
    - apply lookup_has in H3. destruct H3 as [v H3]. rewrite S in H3 by (cbn; auto). eapply has_lookup; eauto.
  Qed.
End D.

Section S.
  Context {C V : Type} (L : library C V).
  Lemma residual_needs m a p (w w' : world C) l d : In m ["ResidualAmplitude"; "ResidualFrequency"] ->
    measure_eccentricity L m a p w = (w', (l, Ok d)) -> exists d0, is_dict (wd_heap w) p d0 /\ has_zeroecc d0.
  Proof.
    intros Hm H. apply measure_ok in H. destruct H as (_ & o & s & r & l1 & l2 & H & _).
    unfold build in H. apply wbind_ok in H. destruct H as (w1 & m1 & m2 & b & H1 & H & _). cbv zeta in H.
    assert (R : exists r0, residual_of b = Ok r0).
    { destruct Hm as [<- |[<- |[]]]; cbn [String.eqb Ascii.eqb Bool.eqb] in H; apply wbind_ok in H; destruct H as (w2 & m3 & m4 & r0 & H & _);
        apply wlift_ok in H; destruct H as (_ & _ & H); eauto. }
    destruct R as [r0 R]. unfold residual_of in R. destruct (forallb _ _) eqn:F; [|discriminate]. clear R.
    apply init_ok in H1. destruct H1 as (rf & pd & t & gw & fl & extra & ek & n & wv & op & user & rs & k1 & k2 & h' & _ & _ & P & _ & _ & _ & _ & _ & _ & _ & _ & _ & _ & _ & _ & B & _).
    apply process_zero in P. destruct P as (d0 & D & K). exists d0. split; [exact D|].
    rewrite B in F. cbn [base_of b_dict_keys] in F. rewrite forallb_forall in F.
    assert (G : forall k, In k ["t_zeroecc"; "amplm_zeroecc"; "omegalm_zeroecc"] -> has (p_dict C pd) k).
    { intros k Hk. apply F in Hk. apply existsb_exists in Hk. destruct Hk as (k' & Hk & E). apply String.eqb_eq in E. subst k'. exact Hk. }
    apply K; apply G; cbn; auto.
  Qed.
  Lemma residual_rejected m a p (w : world C) d0 : In m ["ResidualAmplitude"; "ResidualFrequency"] -> is_dict (wd_heap w) p d0 -> ~ has_zeroecc d0 ->
    forall d, snd (snd (measure_eccentricity L m a p w)) <> Ok d.
  Proof.
    intros Hm Hd Hz d H. destruct (measure_eccentricity L m a p w) as [w' [l r]] eqn:E. cbn in H. subst r.
    apply residual_needs in E; [|exact Hm]. destruct E as (d1 & D & Z). unfold is_dict in *. congruence.
  Qed.
  (** with data that is otherwise in order the exception is Exception *)
  Lemma residual_exception m a p (w w' : world C) l o d0 : In m ["ResidualAmplitude"; "ResidualFrequency"] ->
    build L "Amplitude" a p w = (w', (l, Ok o)) -> is_dict (wd_heap w) p d0 -> ~ has_zeroecc d0 ->
    measure_eccentricity L m a p w = (w', (l, Err GenericException)).
  Proof.
    intros Hm H Hd Hz. unfold build in H. apply wbind_ok in H. destruct H as (w1 & m1 & m2 & b & H1 & H & ->). cbv zeta in H.
    cbn [String.eqb Ascii.eqb Bool.eqb] in H. apply wret_ok in H. destruct H as (-> & -> & _). rewrite app_nil_r.
    assert (R : residual_of b = Err GenericException).
    { unfold residual_of. destruct (forallb _ _) eqn:F; [|reflexivity]. exfalso. apply Hz. pose proof H1 as I.
      apply init_ok in I. destruct I as (rf & pd & t & gw & fl & extra & ek & n & wv & op & user & rs & k1 & k2 & h' & _ & _ & P & _ & _ & _ & _ & _ & _ & _ & _ & _ & _ & _ & _ & B & _).
      apply process_zero in P. destruct P as (d1 & D & K). unfold is_dict in *. replace d0 with d1 by congruence.
      rewrite B in F. cbn [base_of b_dict_keys] in F. rewrite forallb_forall in F.
      assert (G : forall k, In k ["t_zeroecc"; "amplm_zeroecc"; "omegalm_zeroecc"] -> has (p_dict C pd) k).
      { intros k Hk. apply F in Hk. apply existsb_exists in Hk. destruct Hk as (k' & Hk & E). apply String.eqb_eq in E. subst k'. exact Hk. }
      apply K; apply G; cbn; auto. }
    unfold measure_eccentricity. replace (existsb (String.eqb m) available_methods) with true
      by (destruct Hm as [<- |[<- |[]]]; reflexivity).
    apply wstep_err. unfold build, wbind at 1. cbv zeta. rewrite H1. cbn [fst snd].
    destruct Hm as [<- |[<- |[]]]; cbn [String.eqb Ascii.eqb Bool.eqb];
      rewrite (wstep_err (wlift (residual_of b)) _ w1 w1 [] GenericException) by (unfold wlift, lift; now rewrite R);
      cbn [fst snd]; now rewrite app_nil_r.
  Qed.
End S.
