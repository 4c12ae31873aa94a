(** The modelled filter does not look at zeroecc data (C61). *)
From Verif Require Import Base BaseLemmas UtilsModel UtilsSpec MeasureModel SegmentModel DataModel DataSpec InitModel InitSpec InitLemmas InitZeroecc FilterModel.
Open Scope string_scope.
Open Scope nat_scope.

Lemma pair_at_forget {C} (d : sdict (dval C)) k : zeroecc_key k = false -> pair_at (without_zeroecc d) k = pair_at d k.
Proof. intros H. unfold pair_at, modes_at. change (without_zeroecc d) with (forget d). now rewrite sget_forget. Qed.
Lemma type_key_plain b : zeroecc_key (type_key b "") = false.
Proof. now destruct b. Qed.
Lemma lbind_cong {A B} (m : lg A) (f g : A -> lg B) : (forall x, f x = g x) -> lbind m f = lbind m g.
Proof. intros H. unfold lbind. destruct (snd m); [now rewrite H|reflexivity]. Qed.
Lemma make_filter_forget F {C} (d : sdict (dval C)) tm o amp : make_filter F (without_zeroecc d) "" tm o amp = make_filter F d "" tm o amp.
Proof.
  unfold make_filter. apply lbind_cong; intros fspin. apply lbind_cong; intros chk.
  change (sget (without_zeroecc d) "t") with (sget (forget d) "t"). rewrite sget_forget by reflexivity. apply lbind_cong; intros t.
  rewrite !pair_at_forget by apply type_key_plain. reflexivity.
Qed.
Lemma filter_one_forget F {C} fuel (d : sdict (dval C)) tm o amp : filter_one F fuel (without_zeroecc d) "" tm o amp = filter_one F fuel d "" tm o amp.
Proof. unfold filter_one. now rewrite make_filter_forget. Qed.
Lemma filter_blind F {C V} (L : library C V) fuel : lib_filter L = spin_filter F fuel -> blind_filter L.
Proof.
  intros E d tm kw. rewrite E. unfold spin_filter, check_and_filter. f_equal. apply lbind_cong; intros o. rewrite !filter_one_forget.
  apply lbind_cong; intros a. apply lbind_cong; intros w. now rewrite pair_at_forget.
Qed.
(** The measurement with the modelled filter. *)
Lemma zeroecc_unused_filter F {C V} (L : library C V) fuel : lib_filter L = spin_filter F fuel -> forall m a p (w w' : world C) l d0 r,
  In m ["Amplitude"; "Frequency"; "AmplitudeFits"; "FrequencyFits"] -> is_dict (wd_heap w) p d0 -> NoDup (dkeys d0) ->
  (a_precessing a = true -> a_frame a = "inertial" -> has d0 "amplm_zeroecc" -> polar_numbers L) ->
  (a_fref a = None \/ forall e, wd_extra w = Some e -> slookup e "omega_gw_averaging_method" <> Some (Leaf (LStr "omega_gw_zeroecc"))) ->
  measure_eccentricity L m a p w = (w', (l, Ok r)) ->
  exists w2' l2 r2, measure_eccentricity L m a p {| wd_heap := set_nth (wd_heap w) p (OTop C (without_zeroecc d0)); wd_extra := wd_extra w |} = (w2', (l2, Ok r2)) /\
    forall k, In k ["eccentricity"; "mean_anomaly"; "tref_out"; "fref_out"] -> slookup r2 k = slookup r k.
Proof. intros E m a p w w' l d0 r Hm Hd HN HP HA H. eapply zeroecc_unused; eauto. intros _. eapply filter_blind; eauto. Qed.
