(** C78, C79 and the first half of C90: the effect of keywords. *)
From Coq Require Import Qabs Lia Lqa.
From Verif Require Import Base BaseLemmas UtilsModel UtilsSpec UtilsLemmas DataModel HelperModel HelperSpec LoadModel LoadSpec LoadLemmas.
Open Scope string_scope.
Open Scope nat_scope.

Section Keys.
  Variable S : sources.
  Lemma lbind_lift_ok {A B} (a : A) (f : A -> lg B) : lbind (lift (Ok a)) f = f a.
  Proof. unfold lbind, lift. cbn [snd fst app]. now destruct (f a). Qed.
  Lemma lbind_eq {A B} (m : lg A) (f g : A -> lg B) : (forall a, f a = g a) -> lbind m f = lbind m g.
  Proof. intros H. unfold lbind. destruct (snd m); [now rewrite H|reflexivity]. Qed.
  Lemma lbind_lift_err {A B} e (f : A -> lg B) : lbind (lift (Err e)) f = ([], Err e).
  Proof. reflexivity. Qed.

  (** *** SXS *)
  Section SXS.
    Variables x y : lkwargs.
    Hypothesis G : forall k, k <> "metadata_path" -> slookup x k = slookup y k.
    Lemma sxs_get k : k <> "metadata_path" -> sget x k = sget y k.
    Proof. intros N. specialize (G k N). unfold sget, dget, slookup in *. now rewrite G. Qed.
    Lemma sxs_meta : metadata_needed x = metadata_needed y.
    Proof. unfold metadata_needed, has_true. rewrite (sxs_get "include_zero_ecc"), (sxs_get "include_params_dict"), (G "keep_memory") by discriminate. reflexivity. Qed.
    Lemma sxs_dir latest : check_sxs_data_dir S latest x = check_sxs_data_dir S latest y.
    Proof. unfold check_sxs_data_dir. rewrite sxs_meta, (sxs_get "data_dir"), (sxs_get "extrap_order") by discriminate. reflexivity. Qed.
    Lemma sxs_new : get_modes_new S x = get_modes_new S y.
    Proof.
      unfold get_modes_new, has_true. rewrite (sxs_get "data_dir"), (sxs_get "extrap_order"), (sxs_get "keep_memory"), (sxs_get "deltaTOverM"), (sxs_get "mode_array") by discriminate. reflexivity.
    Qed.
    Lemma sxs_old : get_modes_old S x = get_modes_old S y.
    Proof. unfold get_modes_old. rewrite (sxs_get "data_dir"), (sxs_get "extrap_order"), (sxs_get "deltaTOverM"), (sxs_get "mode_array") by discriminate. reflexivity. Qed.
    Lemma sxs_return fuel t d hz : make_return_dict S fuel t d hz x = make_return_dict S fuel t d hz y.
    Proof.
      unfold make_return_dict, has_true.
      rewrite sxs_meta, (sxs_get "data_dir"), (sxs_get "num_orbits_to_remove_as_junk"), (sxs_get "include_zero_ecc"), (sxs_get "include_params_dict"), (sxs_get "zero_ecc_approximant") by discriminate.
      reflexivity.
    Qed.
  End SXS.
  Lemma sxs_alike (latest : bool) fuel a b : alike_in "metadata_path" false (published (if latest then "SXSCatalog" else "SXSCatalog_old")) a b -> load_sxs S latest fuel a = load_sxs S latest fuel b.
  Proof.
    intros A. unfold load_sxs.
    assert (D : get_load_waveform_defaults (if latest then "SXSCatalog" else "SXSCatalog_old") = Ok (published (if latest then "SXSCatalog" else "SXSCatalog_old")))
      by (apply defaults_published; destruct latest; cbn; tauto).
    rewrite D, !lbind_lift_ok. pose proof (alike_check _ _ a b _ (published_nodup (if latest then "SXSCatalog" else "SXSCatalog_old")) A) as C.
    destruct (check_kwargs_and_set_defaults (Some a) _) as [x|e], (check_kwargs_and_set_defaults (Some b) _) as [y|e']; try contradiction; [|now subst].
    rewrite !lbind_lift_ok. destruct C as [G _]. rewrite (sxs_dir x y G), (sxs_new x y G), (sxs_old x y G).
    apply lbind_eq. intros hz. apply lbind_eq. intros td. exact (sxs_return x y G fuel _ _ hz).
  Qed.

  (** *** the others read each keyword as it is *)
  Ltac fill A o :=
    match goal with |- context [check_kwargs_and_set_defaults (Some ?a) _] =>
      let C := fresh "C" in
      match type of A with same_in _ _ ?b =>
        pose proof (alike_check "" true a b _ (published_nodup o) (same_alike_in "" true _ a b A)) as C;
        destruct (check_kwargs_and_set_defaults (Some a) _) as [x|e], (check_kwargs_and_set_defaults (Some b) _) as [y|e']; try contradiction
      end
    end.
  Lemma lvcnr_alike fuel a b : same_in (published "LVCNR") a b -> load_lvcnr_waveform S fuel a = load_lvcnr_waveform S fuel b.
  Proof.
    intros A. unfold load_lvcnr_waveform. rewrite (defaults_published "LVCNR") by (cbn; tauto). rewrite !lbind_lift_ok. fill A "LVCNR"; [|now subst].
    rewrite !lbind_lift_ok. unfold has_true. assert (G : forall k, k <> "" -> sget x k = sget y k) by (intros k N; exact (alike_sget _ _ x y k C N)).
    rewrite (G "filepath"), (G "deltaTOverM"), (G "Momega0"), (G "num_orbits_to_remove_as_junk"), (G "include_zero_ecc"), (G "include_params_dict"), (G "zero_ecc_approximant") by discriminate.
    reflexivity.
  Qed.
  Lemma hack_alike fuel a b : same_in (published "LVCNR_hack") a b -> load_lvcnr_hack S fuel a = load_lvcnr_hack S fuel b.
  Proof.
    intros A. unfold load_lvcnr_hack. rewrite (defaults_published "LVCNR_hack") by (cbn; tauto). rewrite !lbind_lift_ok. fill A "LVCNR_hack"; [|now subst].
    rewrite !lbind_lift_ok. unfold has_true. assert (G : forall k, k <> "" -> sget x k = sget y k) by (intros k N; exact (alike_sget _ _ x y k C N)).
    rewrite (G "filepath"), (G "deltaTOverM"), (G "num_orbits_to_remove_as_junk"), (G "include_zero_ecc"), (G "include_params_dict"), (G "zero_ecc_approximant") by discriminate.
    reflexivity.
  Qed.
  Lemma eob_alike a b : same_in (published "EOB") a b -> load_EOB_waveform S a = load_EOB_waveform S b.
  Proof.
    intros A. unfold load_EOB_waveform. rewrite (defaults_published "EOB") by (cbn; tauto). cbn [bind]. fill A "EOB"; [|now subst].
    cbn [bind]. unfold has_true. assert (G : forall k, k <> "" -> sget x k = sget y k) by (intros k N; exact (alike_sget _ _ x y k C N)).
    rewrite (G "filepath"), (G "include_zero_ecc"), (G "filepath_zero_ecc") by discriminate. reflexivity.
  Qed.
  Lemma emri_alike a b : same_in (published "EMRI") a b -> load_EMRI_waveform S a = load_EMRI_waveform S b.
  Proof.
    intros A. unfold load_EMRI_waveform. rewrite (defaults_published "EMRI") by (cbn; tauto). cbn [bind]. fill A "EMRI"; [|now subst].
    cbn [bind]. unfold has_true. assert (G : forall k, k <> "" -> sget x k = sget y k) by (intros k N; exact (alike_sget _ _ x y k C N)).
    rewrite (G "filepath"), (G "start_time"), (G "end_time"), (G "deltaT"), (G "include_zero_ecc"), (G "filepath_zero_ecc"), (G "include_geodesic_ecc") by discriminate.
    reflexivity.
  Qed.

  (** ** C78 *)
  Lemma unknown_origin fuel o kw : ~ In o origins -> load_waveform S fuel o kw = ([], Err GenericException) /\ get_load_waveform_defaults o = Err GenericException.
  Proof.
    intros H. split; [|now apply defaults_unknown]. unfold load_waveform.
    repeat match goal with |- (if String.eqb o ?x then _ else _) = _ => destruct (String.eqb_spec o x) as [->|?]; [exfalso; apply H; cbn; tauto|] end. reflexivity.
  Qed.
  Lemma same_result fuel o a b : same_in (published o) a b -> load_waveform S fuel o a = load_waveform S fuel o b.
  Proof.
    intros A. unfold load_waveform.
    destruct (String.eqb_spec o "LAL") as [->|_]; [now rewrite (lal_alike S fuel a b (same_alike_in _ _ _ _ _ A))|].
    destruct (String.eqb_spec o "SXSCatalog") as [->|_]; [apply sxs_alike; now apply same_alike_in|].
    destruct (String.eqb_spec o "SXSCatalog_old") as [->|_]; [apply sxs_alike; now apply same_alike_in|].
    destruct (String.eqb_spec o "LVCNR") as [->|_]; [now apply lvcnr_alike|]. destruct (String.eqb_spec o "LVCNR_hack") as [->|_]; [now apply hack_alike|].
    destruct (String.eqb_spec o "EOB") as [->|_]; [now rewrite (eob_alike a b A)|]. destruct (String.eqb_spec o "EMRI") as [->|_]; [now rewrite (emri_alike a b A)|]. reflexivity.
  Qed.
  Lemma order_irrelevant fuel o a b : same_keywords a b -> load_waveform S fuel o a = load_waveform S fuel o b.
  Proof.
    intros A. apply same_result. split; [|intros k; rewrite !slookup_app; now rewrite A].
    split; intros K k P; apply K; [rewrite A|rewrite <- A]; exact P.
  Qed.
  Lemma default_given fuel o kw k v : slookup kw k = None -> slookup (published o) k = Some v ->
    load_waveform S fuel o (kw ++ [(k, v)])%list = load_waveform S fuel o kw.
  Proof.
    intros N D. apply same_result.
    assert (L : forall k', slookup (kw ++ [(k, v)])%list k' = if String.eqb k' k then match slookup kw k' with Some w => Some w | None => Some v end else slookup kw k').
    { intros k'. rewrite slookup_app. unfold slookup at 2. cbn [dlookup]. destruct (slookup kw k'); destruct (String.eqb k' k); reflexivity. }
    split.
    - split; intros K k' P.
      + apply K. rewrite L. destruct (String.eqb k' k); [|exact P]. destruct (slookup kw k'); congruence.
      + rewrite L in P. destruct (String.eqb_spec k' k) as [E|E]; [rewrite E; congruence|now apply K].
    - intros k'. rewrite (slookup_app (kw ++ [(k, v)])%list), (slookup_app kw (published o)), L. destruct (String.eqb_spec k' k) as [E|E]; [rewrite E, N; now rewrite D|reflexivity].
  Qed.
  Lemma unknown_keyword fuel o kw : In o origins -> ~ known kw (published o) -> load_waveform S fuel o kw = ([], Err ValueError).
  Proof.
    intros I K. pose proof (checked_unknown _ _ K) as C.
    cbn in I. repeat (destruct I as [<-|I]; [
      unfold load_waveform; cbn [String.eqb Ascii.eqb Bool.eqb];
      unfold load_LAL_waveform, load_LAL_once, load_sxs, load_lvcnr_waveform, load_lvcnr_hack, load_EOB_waveform, load_EMRI_waveform;
      try (rewrite defaults_published by (cbn; tauto)); rewrite ?lbind_lift_ok; cbn [bind];
      first [change lal_defaults with (published "LAL") | idtac]; rewrite C; reflexivity|]). destruct I.
  Qed.
  Lemma unknown_key fuel o kw k : In o origins -> In k (dkeys kw) -> ~ In k (dkeys (published o)) -> load_waveform S fuel o kw = ([], Err ValueError).
  Proof.
    intros I K N. apply unknown_keyword; [exact I|]. intros C. apply slookup_none in N. apply (C k); [|exact N].
    intros E. apply slookup_none in E. contradiction.
  Qed.
  (** a required keyword that is missing or None *)
  Lemma asked_value o kw x k v : check_kwargs_and_set_defaults (Some kw) (published o) = Ok x -> asked o kw k v -> sget x k = Ok v.
  Proof. intros C A. destruct (checked _ _ _ (published_nodup o) C) as [_ L]. apply sget_ok. now rewrite L. Qed.
  Lemma known_of o kw : (forall k, In k (dkeys kw) -> In k (dkeys (published o))) -> known kw (published o).
  Proof.
    intros H k P. destruct (in_dec string_dec k (dkeys kw)) as [I|I]; [|apply slookup_none in I; contradiction].
    intros E. apply slookup_none in E. auto.
  Qed.
  Lemma required_lal fuel kw k : (forall k, In k (dkeys kw) -> In k (dkeys (published "LAL"))) -> In k lal_required -> asked "LAL" kw k None ->
    load_waveform S fuel "LAL" kw = ([], Err GenericException).
  Proof.
    intros K I A. apply known_of in K. destruct (checked_total _ _ K) as [x X]. unfold load_waveform. cbn [String.eqb Ascii.eqb Bool.eqb].
    unfold load_LAL_waveform, load_LAL_once. change lal_defaults with (published "LAL"). rewrite X. cbn [bind].
    assert (R : raise_exception_if_none x lal_required = Err GenericException).
    { apply (asked_value "LAL" kw x k None X) in A. destruct (checked _ _ _ (published_nodup "LAL") X) as [_ L].
      assert (P : forall k', In k' lal_required -> exists v, sget x k' = Ok v).
      { intros k' I'. assert (Q : slookup x k' <> None).
        { rewrite L, slookup_app. destruct (slookup kw k'); [discriminate|]. cbn in I'. repeat (destruct I' as [<-|I']; [discriminate|]). destruct I'. }
        destruct (slookup x k') as [v|] eqn:E; [|congruence]. exists v. now apply sget_ok. }
      clear X L K. revert I P. generalize lal_required. intros ks. induction ks as [|k' ks IH]; intros I P; [destruct I|]. cbn [raise_exception_if_none].
      destruct (P k' (or_introl eq_refl)) as [v V]. rewrite V. cbn [bind]. destruct v as [v|]; [|reflexivity].
      apply IH; [|intros k2 I2; apply P; now right]. destruct I as [->|I]; [congruence|exact I]. }
    change ["approximant"; "q"; "chi1"; "chi2"; "ecc"; "mean_ano"; "Momega0"] with lal_required. rewrite R. reflexivity.
  Qed.
  Lemma path_required fuel o kw : (forall k, In k (dkeys kw) -> In k (dkeys (published o))) ->
    In o origins -> o <> "LAL" -> asked o kw (if String.eqb o "SXSCatalog" || String.eqb o "SXSCatalog_old" then "data_dir" else "filepath") None ->
    exists e, snd (load_waveform S fuel o kw) = Err e.
  Proof.
    intros K I N A. apply known_of in K. destruct (checked_total _ _ K) as [x X]. apply (asked_value o kw x _ None X) in A.
    destruct (snd (load_waveform S fuel o kw)) as [data|e] eqn:H; [exfalso|eauto].
    cbn in I. destruct I as [<-|[<-|[<-|[<-|[<-|[<-|[<-|[]]]]]]]]; [congruence| | | | | |]; cbn [String.eqb Ascii.eqb Bool.eqb orb] in A;
      unfold load_waveform in H; cbn [String.eqb Ascii.eqb Bool.eqb] in H.
    - unfold load_sxs in H. rewrite (defaults_published "SXSCatalog") in H by (cbn; tauto). rewrite lbind_lift_ok, X, lbind_lift_ok in H.
      apply lbind_inv in H. destruct H as (hz & H & _). unfold check_sxs_data_dir in H. rewrite A, lbind_lift_ok in H. apply lbind_inv in H. destruct H as (d & H & _). discriminate H.
    - unfold load_sxs in H. rewrite (defaults_published "SXSCatalog_old") in H by (cbn; tauto). rewrite lbind_lift_ok, X, lbind_lift_ok in H.
      apply lbind_inv in H. destruct H as (hz & H & _). unfold check_sxs_data_dir in H. rewrite A, lbind_lift_ok in H. apply lbind_inv in H. destruct H as (d & H & _). discriminate H.
    - unfold load_lvcnr_waveform in H. rewrite (defaults_published "LVCNR") in H by (cbn; tauto). rewrite lbind_lift_ok, X, lbind_lift_ok in H.
      apply lbind_inv in H. destruct H as (d & H & _). rewrite A in H. discriminate H.
    - unfold load_lvcnr_hack in H. rewrite (defaults_published "LVCNR_hack") in H by (cbn; tauto). rewrite lbind_lift_ok, X, lbind_lift_ok in H.
      apply lbind_inv in H. destruct H as (d & H & _). rewrite A in H. discriminate H.
    - cbn [lift snd] in H. unfold load_EOB_waveform in H. rewrite (defaults_published "EOB") in H by (cbn; tauto). cbn [bind] in H. rewrite X in H. cbn [bind] in H. rewrite A in H. cbn [bind] in H.
      apply bind_ok in H. destruct H as (z & _ & H). apply bind_ok in H. destruct H as (zv & _ & H). discriminate H.
    - cbn [lift snd] in H. unfold load_EMRI_waveform in H. rewrite (defaults_published "EMRI") in H by (cbn; tauto). cbn [bind] in H. rewrite X in H. cbn [bind] in H. rewrite A in H. discriminate H.
  Qed.

  (** ** C79 and C90 *)
  Lemma mean_ano_ignored fuel kw a b : load_waveform S fuel "LAL" (sset kw "mean_ano" (Some a)) = load_waveform S fuel "LAL" (sset kw "mean_ano" (Some b)).
  Proof.
    unfold load_waveform. cbn [String.eqb Ascii.eqb Bool.eqb]. f_equal. apply lal_alike. apply alike_alike_in. split.
    - intros k N. rewrite !slookup_sset. destruct (String.eqb_spec k "mean_ano"); [contradiction|reflexivity].
    - rewrite !slookup_sset, !String.eqb_refl. cbn. intros _. split; discriminate.
  Qed.
  Lemma metadata_path_ignored fuel o kw v : In o ["SXSCatalog"; "SXSCatalog_old"] ->
    load_waveform S fuel o (sset kw "metadata_path" v) = load_waveform S fuel o kw.
  Proof.
    intros I.
    assert (A : alike_in "metadata_path" false (published o) (sset kw "metadata_path" v) kw).
    { assert (P : exists w, slookup (published o) "metadata_path" = Some w) by (cbn in I; destruct I as [<-|[<-|[]]]; eexists; reflexivity). destruct P as [w P]. split.
      - split; intros K k Q.
        + apply K. rewrite slookup_sset. destruct (String.eqb k "metadata_path"); [discriminate|exact Q].
        + rewrite slookup_sset in Q. destruct (String.eqb_spec k "metadata_path") as [E|E]; [rewrite E; congruence|now apply K].
      - split.
        + intros k N. rewrite !slookup_app, slookup_sset. destruct (String.eqb_spec k "metadata_path"); [contradiction|reflexivity].
        + rewrite !slookup_app, slookup_sset, String.eqb_refl. destruct (slookup kw "metadata_path"); [|rewrite P]; cbn; discriminate. }
    cbn in I. destruct I as [<-|[<-|[]]]; unfold load_waveform; cbn [String.eqb Ascii.eqb Bool.eqb]; apply sxs_alike; exact A.
  Qed.
End Keys.
