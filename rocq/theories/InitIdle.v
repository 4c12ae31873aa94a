(** Proof that options that do not apply to a call have no effect on it. *)
From Verif Require Import Base BaseLemmas UtilsModel UtilsSpec UtilsLemmas ExtremaModel RationalModel MeasureModel MeasureSpec LevelLemmas
  SegmentModel SegmentSpec SegmentLemmas DataModel DataSpec DataLemmas DataLemmas2 InitModel InitSpec InitLemmas InitOptions InitSame IdleSpec.
Open Scope string_scope.
Open Scope nat_scope.

Lemma given_dict x k : given x k = slookup (extra_dict x) k.
Proof. destruct x; reflexivity. Qed.
Lemma given_has x k : has (extra_dict x) k <-> given x k <> None.
Proof.
  rewrite given_dict, has_mem. unfold smem, dmem. fold (slookup (extra_dict x) k). destruct (slookup (extra_dict x) k); split; congruence.
Qed.

Section S.
  Context {C V : Type} (L : library C V) (m : string) (a : args).
  Notation world := (world C).
  Notation idle := (idle m a).
  Notation alike := (alike_but idle).

  Lemma idle_known k : idle k -> has default_extra k.
  Proof. intros [[-> _]|[[<-|[<-|[]]] _]]; cbn; tauto. Qed.
  Lemma alike_unknown x y : alike x y ->
    (exists k, has (extra_dict x) k /\ ~ has default_extra k) -> (exists k, has (extra_dict y) k /\ ~ has default_extra k).
  Proof.
    intros H (k & A & B). exists k. split; [|exact B]. apply given_has in A. apply given_has. rewrite <- H; [exact A|]. intros I. apply B, idle_known, I.
  Qed.
  Lemma alike_sym x y : alike x y -> alike y x.
  Proof. intros H k N. symmetry. auto. Qed.
  Lemma alike_sset x y v : alike x y -> alike (Some (sset (extra_dict x) "filter_kwargs" v)) (Some (sset (extra_dict y) "filter_kwargs" v)).
  Proof. intros H k N. cbn [given]. rewrite !slookup_sset. destruct (String.eqb k _); [reflexivity|]. rewrite <- !given_dict. auto. Qed.

  Definition near (w w2 : world) : Prop := wd_heap w = wd_heap w2 /\ alike (wd_extra w) (wd_extra w2).
  Lemma near_heap w w2 : near w w2 -> same_heap w w2.
  Proof. intros [H _]. exact H. Qed.
  Lemma sim_near_heap {A} (x : M C A) : sim near near eq (on_heap x) (on_heap x).
  Proof.
    intros w w2 [H1 H2]. unfold on_heap. rewrite H1. cbn. split; [reflexivity|]. split; [reflexivity|].
    destruct (snd (snd (x (wd_heap w2)))); [|reflexivity]. split; [reflexivity|]. split; [reflexivity|exact H2].
  Qed.
  Lemma near_filter tm d : a_precessing a = true ->
    sim near same_heap (fun f f2 => fst f = fst f2 /\ alike (snd f) (snd f2)) (filter_step L tm d) (filter_step L tm d).
  Proof.
    intros Pr w w2 [H1 H2]. rewrite !filter_step_eq.
    assert (F : filter_check (wd_extra w2) = filter_check (wd_extra w)).
    { unfold filter_check, filter_user. rewrite <- !given_dict, (H2 "filter_kwargs"); [reflexivity|]. intros [[_ I]|[[I|[I|[]]] _]]; congruence. }
    rewrite F, <- H1. destruct (filter_check (wd_extra w)) as [fk|e]; [|cbn; auto]. cbv zeta.
    destruct (snd (lib_filter L (deepcopy C (wd_heap w) d) tm fk)); cbn; [|auto].
    split; [reflexivity|]. split; [reflexivity|]. split; [|reflexivity]. split; [reflexivity|]. now apply alike_sset.
  Qed.

  (** Options that differ only in what the fits use. *)
  Definition reset_op (o : options) (f : pyval) (r : bool) : options :=
    {| op_extrema := op_extrema o; op_interp := op_interp o; op_special := op_special o; op_degrees := op_degrees o; op_general := op_general o;
       op_average := op_average o; op_midpoints := op_midpoints o; op_return_zero := op_return_zero o; op_fits := f; op_refine := r |}.
  Definition reset (b : base) (f : pyval) (r : bool) : base :=
    {| b_dict_keys := b_dict_keys b; b_wave := b_wave b; b_t_merger := b_t_merger b; b_amp_merger := b_amp_merger b;
       b_extrema_kwargs := b_extrema_kwargs b; b_fits_kwargs := f; b_config := b_config b; b_degrees := b_degrees b;
       b_residual := b_residual b; b_refine := r |}.
  Definition fits_method : Prop := In m ["AmplitudeFits"; "FrequencyFits"].
  Definition same_op (o o2 : options) : Prop := exists f r, o2 = reset_op o f r /\ (fits_method -> o2 = o).
  Definition same_base (b b2 : base) : Prop := exists f r, b2 = reset b f r /\ (fits_method -> b2 = b).
  Lemma near_options ek ek2 width : (forall k, ~ idle k -> slookup ek k = slookup ek2 k) ->
    (forall k, has default_extra k -> slookup ek k <> None) -> (forall k, has default_extra k -> slookup ek2 k <> None) ->
    match read_options ek width, read_options ek2 width with Ok x, Ok y => same_op x y | Err e, Err e' => e = e' | _, _ => False end.
  Proof.
    intros H P1 P2.
    assert (E : forall k, k <> "filter_kwargs" -> k <> "kwargs_for_fits_methods" -> k <> "refine_extrema" -> slookup ek k = slookup ek2 k).
    { intros k A B D. apply H. intros [[I _]|[[I|[I|[]]] _]]; congruence. }
    assert (G : fits_method -> slookup ek "kwargs_for_fits_methods" = slookup ek2 "kwargs_for_fits_methods" /\ slookup ek "refine_extrema" = slookup ek2 "refine_extrema").
    { intros F. split; apply H; intros [[I _]|[_ N]]; try discriminate I; exact (N F). }
    pose proof (P1 "kwargs_for_fits_methods") as A1. pose proof (P2 "kwargs_for_fits_methods") as A2.
    pose proof (P1 "refine_extrema") as A3. pose proof (P2 "refine_extrema") as A4.
    assert (K1 : has default_extra "kwargs_for_fits_methods") by (cbn; tauto). assert (K2 : has default_extra "refine_extrema") by (cbn; tauto).
    specialize (A1 K1). specialize (A2 K1). specialize (A3 K2). specialize (A4 K2). clear P1 P2 K1 K2 H.
    unfold read_options. rewrite !sget_lookup. rewrite !(E _) by discriminate.
    destruct (slookup ek "kwargs_for_fits_methods") as [f1|]; [|congruence]. destruct (slookup ek2 "kwargs_for_fits_methods") as [f2|]; [|congruence].
    destruct (slookup ek "refine_extrema") as [r1|]; [|congruence]. destruct (slookup ek2 "refine_extrema") as [r2|]; [|congruence].
    repeat match goal with |- context [bind ?x _] => destruct x; cbn [bind]; [|reflexivity] end.
    exists f2, (truthy r2). split; [reflexivity|]. intros F. destruct (G F) as [G1 G2]. apply Some_inj in G1, G2. now subst.
  Qed.
  Lemma near_init p : sim near same_heap same_base (init L a p) (init L a p).
  Proof.
    unfold init.
    eapply sim_bind; [apply sim_lift, near_heap|]. intros rf ? <-.
    eapply sim_bind; [apply sim_lift, near_heap|]. intros [] ? <-.
    eapply sim_bind; [apply sim_near_heap|]. intros pd ? <-. cbv zeta.
    eapply sim_bind; [apply sim_lift, near_heap|]. intros t ? <-.
    eapply sim_bind; [apply sim_lift, near_heap|]. intros [] ? <-.
    eapply sim_bind; [apply sim_read, near_heap|]. intros gw ? <-.
    eapply (sim_bind near same_heap same_heap (fun f f2 => fst f = fst f2 /\ alike (snd f) (snd f2))).
    { destruct (a_precessing a) eqn:Pr; [now apply near_filter|]. intros w w2 [H1 H2]. cbn. split; [exact H1|]. split; [reflexivity|].
      split; [|exact H1]. split; [reflexivity|exact H2]. }
    intros [fl x] [fl2 x2] [Hfl Hx]. cbn [fst snd] in *. subst fl2.
    eapply (sim_bind same_heap same_heap same_heap (fun ek ek2 => (forall k, ~ idle k -> slookup ek k = slookup ek2 k) /\
      (forall k, has default_extra k -> slookup ek k <> None) /\ (forall k, has default_extra k -> slookup ek2 k <> None))).
    { intros w w2 H. cbn. split; [exact H|]. split; [reflexivity|].
      pose proof (check_known x x2 (conj (alike_unknown _ _ Hx) (alike_unknown _ _ (alike_sym _ _ Hx)))) as K.
      destruct (check_kwargs_and_set_defaults x default_extra), (check_kwargs_and_set_defaults x2 default_extra); auto.
      destruct K as [-> ->]. split; [|exact H].
      assert (Pd : forall y k, has default_extra k -> slookup (fill_defaults (extra_dict y) default_extra) k <> None).
      { intros y k Hk. rewrite fill_lookup. destruct (slookup (extra_dict y) k); [discriminate|]. rewrite has_mem in Hk. unfold smem, dmem in Hk.
        fold (slookup default_extra k) in Hk. destruct (slookup default_extra k); congruence. }
      split; [|split; apply Pd]. intros k Hk. rewrite !fill_lookup, <- !given_dict, (Hx k Hk). reflexivity. }
    intros ek ek2 (Hek & P1 & P2). rewrite !sget_lookup. rewrite (Hek "use_only_these_many_orbits") by (intros [[I _]|[[I|[I|[]]] _]]; discriminate).
    eapply sim_bind; [apply sim_lift, sh_heap|]. intros n ? <-.
    eapply sim_bind; [apply sim_log, sh_heap|]. intros wv ? <-.
    eapply (sim_bind same_heap same_heap same_heap same_op).
    { intros w w2 H. cbn. split; [exact H|]. split; [reflexivity|]. pose proof (near_options ek ek2 (p_width C pd) Hek P1 P2) as N.
      destruct (read_options ek (p_width C pd)), (read_options ek2 (p_width C pd)); auto. }
    intros op op2 (f & r & -> & Hop). cbn [reset_op op_general op_extrema op_fits op_midpoints op_return_zero op_interp op_average op_special op_degrees op_refine].
    eapply sim_bind; [apply sim_read, sh_heap|]. intros user ? <-.
    eapply sim_bind; [apply sim_log, sh_heap|]. intros [] ? <-.
    eapply sim_bind; [apply sim_read, sh_heap|]. intros rs ? <-.
    apply sim_ret; [apply sh_heap|]. exists f, r. split; [reflexivity|]. intros F. specialize (Hop F).
    assert (E1 : op_fits (reset_op op f r) = op_fits op) by (now rewrite Hop). assert (E2 : op_refine (reset_op op f r) = op_refine op) by (now rewrite Hop).
    cbn in E1, E2. now subst.
  Qed.
  Definition same_object (o o2 : object) : Prop := measure_object L (a_level a) o = measure_object L (a_level a) o2.
  Lemma object_near b b2 data fk : same_base b b2 ->
    same_object {| o_method := m; o_base := b; o_data := data; o_fits := fk |} {| o_method := m; o_base := b2; o_data := data; o_fits := fk |}.
  Proof.
    intros (f & r & -> & F). unfold same_object.
    destruct (in_dec string_dec m ["AmplitudeFits"; "FrequencyFits"]) as [I|N]; [now rewrite (F I)|].
    unfold measure_object, find_extrema. cbn [o_method o_base o_data o_fits reset b_config b_degrees b_extrema_kwargs b_wave b_t_merger b_refine].
    replace (existsb (String.eqb m) ["AmplitudeFits"; "FrequencyFits"]) with false; [reflexivity|].
    symmetry. destruct (existsb _ _) eqn:E; [|reflexivity]. exfalso. apply N. apply existsb_exists in E. destruct E as (x & I & Q). apply String.eqb_eq in Q. now subst.
  Qed.
  Lemma near_build p : In m available_methods -> sim near same_heap same_object (build L m a p) (build L m a p).
  Proof.
    intros Av. unfold build. eapply sim_bind; [apply near_init|]. intros b b2 Hb. cbv zeta.
    assert (E : fits_method \/ (b_wave b2 = b_wave b /\ residual_of b2 = residual_of b)).
    { destruct Hb as (f & r & -> & F). right. split; reflexivity. }
    pose proof Hb as (f & r & Eb & F). 
    assert (W : b_wave b2 = b_wave b) by (rewrite Eb; reflexivity). assert (R : residual_of b2 = residual_of b) by (rewrite Eb; reflexivity).
    rewrite W, R. clear E.
    destruct (String.eqb m "Amplitude") eqn:E1; [apply sim_ret; [apply sh_heap|now apply object_near]|].
    destruct (String.eqb m "Frequency") eqn:E2; [apply sim_ret; [apply sh_heap|now apply object_near]|].
    destruct (String.eqb m "ResidualAmplitude") eqn:E3; [eapply sim_bind; [apply sim_lift, sh_heap|]; intros ? ? <-; apply sim_ret; [apply sh_heap|now apply object_near]|].
    destruct (String.eqb m "ResidualFrequency") eqn:E4; [eapply sim_bind; [apply sim_lift, sh_heap|]; intros ? ? <-; apply sim_ret; [apply sh_heap|now apply object_near]|].
    assert (Fm : fits_method).
    { apply String.eqb_neq in E1, E2, E3, E4. unfold fits_method. cbn in Av |- *. intuition congruence. }
    rewrite (F Fm).
    destruct (String.eqb m "AmplitudeFits"); repeat (eapply sim_bind; [apply sim_lift, sh_heap|]; intros ? ? <-); (apply sim_ret; [apply sh_heap|reflexivity]).
  Qed.
  Lemma near_measure p : sim near same_heap (fun d d2 => forall k, k <> "gwecc_object" -> slookup d k = slookup d2 k)
    (measure_eccentricity L m a p) (measure_eccentricity L m a p).
  Proof.
    unfold measure_eccentricity. destruct (existsb _ _) eqn:E.
    2:{ intros w w2 [H _]. cbn. auto. }
    apply existsb_exists in E. destruct E as (x & I & Q). apply String.eqb_eq in Q. subst x.
    eapply sim_bind; [exact (near_build p I)|]. intros o o2 Ho. cbv zeta. red in Ho. rewrite <- Ho.
    eapply sim_bind; [apply sim_log, sh_heap|]. intros r ? <-. apply sim_ret; [apply sh_heap|]. intros k Hk.
    unfold dupdate. cbn [fold_left fst snd]. fold (sset (return_dict r) "gwecc_object" (EObject o (fst (snd (measure_object L (a_level a) o))))).
    fold (sset (return_dict r) "gwecc_object" (EObject o2 (fst (snd (measure_object L (a_level a) o))))).
    rewrite !slookup_sset. apply String.eqb_neq in Hk. now rewrite Hk.
  Qed.
End S.
Lemma idle_claim C V (L : library C V) m a p h x y : alike_but (idle m a) x y ->
  let r := measure_eccentricity L m a p {| wd_heap := h; wd_extra := x |} in
  let r2 := measure_eccentricity L m a p {| wd_heap := h; wd_extra := y |} in
  wd_heap (fst r) = wd_heap (fst r2) /\ fst (snd r) = fst (snd r2) /\
  match snd (snd r), snd (snd r2) with
  | Ok d, Ok d2 => forall k, k <> "gwecc_object" -> slookup d k = slookup d2 k
  | Err e, Err e2 => e = e2
  | _, _ => False
  end.
Proof.
  intros H. cbv zeta. destruct (near_measure L m a p {| wd_heap := h; wd_extra := x |} {| wd_heap := h; wd_extra := y |} (conj eq_refl H)) as (A & B & D).
  split; [exact A|]. split; [exact B|]. revert D. generalize (snd (snd (measure_eccentricity L m a p {| wd_heap := h; wd_extra := x |}))) as r1.
  generalize (snd (snd (measure_eccentricity L m a p {| wd_heap := h; wd_extra := y |}))) as r2. intros [?|?] [?|?]; tauto.
Qed.
