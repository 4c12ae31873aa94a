(** A successful call for a numerical waveform, origin by origin. *)
From Coq Require Import Qabs Lia Lqa.
From Verif Require Import Base BaseLemmas UtilsModel UtilsSpec UtilsLemmas MeasureModel DataModel DataLemmas2 HelperModel HelperSpec HelperLemmas LoadModel LoadSpec LoadLemmas LoadKeys LoadWave LoadLAL LoadZero LoadSpins LoadNR LoadSXS.
Open Scope string_scope.
Open Scope nat_scope.

Lemma skipn_in {K} i (d : mdict (list K)) lm h' : In (lm, h') (map (fun kv => (fst kv, skipn i (snd kv))) d) -> exists h, In (lm, h) d /\ h' = skipn i h.
Proof. intros I. apply in_map_iff in I. destruct I as ([k h] & E & I). cbn [fst snd] in E. injection E as <- <-. eauto. Qed.
Lemma drop_fits i t d t' d' : @drop_start cnum i t d = (t', d') -> fits t d -> fits t' d'.
Proof. intros E F. injection E as <- <-. intros lm h I. apply skipn_in in I. destruct I as (h0 & I & ->). rewrite !skipn_length. now rewrite (F _ _ I). Qed.
Lemma skipn_uniform step i t : uniform step t -> uniform step (skipn i t).
Proof. intros U j a b A B. rewrite nth_error_skipn in A, B. replace (i + Datatypes.S j) with (Datatypes.S (i + j)) in B by lia. exact (U _ _ _ A B). Qed.
Lemma shift_shifted t p : shifted t (shift t p).
Proof. exists p. reflexivity. Qed.

Section Inv.
  Variable S : sources.
  Notation neg := (fun l => map Qopp (so_phase S l)).
  Lemma wanted_iff o u kw k b : check_kwargs_and_set_defaults (Some u) (published o) = Ok kw -> has_true kw k = Ok b -> (wanted o u k <-> b = true) /\ (unwanted o u k <-> b = false).
  Proof.
    intros C H. apply true_get in H. destruct H as (v & V & O). pose proof (asked_of _ _ _ _ _ C V) as A. change on with counts in O. unfold wanted, unwanted, asked in *. split; split.
    - intros (w & W & ON). rewrite A in W. apply Some_inj in W. subst. congruence.
    - intros ->. eauto.
    - intros (w & W & ON). rewrite A in W. apply Some_inj in W. subst. congruence.
    - intros ->. eauto.
  Qed.
  Lemma junk_ok dir t d orbits td :
    (if so_exists S dir FHorizons then do h <- so_horizons S dir; remove_junk_horizons t d orbits (fst h) (snd h) else remove_junk neg t d orbits) = Ok td ->
    exists i, drop_start i t d = td /\ junk S dir t d orbits i.
  Proof.
    unfold junk. destruct (so_exists S dir FHorizons); intros H.
    - apply bind_ok in H. destruct H as ([time ph] & HO & H). cbn [fst snd] in H. unfold remove_junk_horizons, orbits_duration in H. apply bind_ok in H. destruct H as (du & D & H).
      apply bind_ok in D. destruct D as (p0 & P & D). apply bind_ok in D. destruct D as (j & J & D). apply bind_ok in D. destruct D as (a & A & D). apply bind_ok in D. destruct D as (b & B & D).
      apply Ok_inj in D. subst du. apply bind_ok in H. destruct H as (i & I & H). apply Ok_inj in H. apply get_ok in P, A, B. apply argmin_nearest in J, I.
      exists i. split; [exact H|]. exists time, ph, p0, j, a, b. auto 7.
    - unfold remove_junk in H. apply bind_ok in H. destruct H as (h & E & H). apply bind_ok in H. destruct H as (p0 & P & H). apply bind_ok in H. destruct H as (i & I & H).
      apply Ok_inj in H. apply mget_ok in E. apply get_ok in P. apply argmin_nearest in I. exists i. split; [exact H|]. eauto.
  Qed.
  Lemma removed_drop t d orbits td : remove_junk neg t d orbits = Ok td -> exists i, drop_start i t d = td.
  Proof. unfold remove_junk. intros H. apply bind_ok in H. destruct H as (h & _ & H). apply bind_ok in H. destruct H as (p0 & _ & H). apply bind_ok in H. destruct H as (i & _ & H). apply Ok_inj in H. eauto. Qed.

  (** ** what all of them return *)
  Definition nr_outcome (fuel : nat) (o : string) (u : lkwargs) (data : data_dict) (t : list Q) (d : modes) : Prop :=
    holds data "t" (DTime t) /\ holds data "hlm" (DModes d) /\
    keys_of o u data [("include_zero_ecc", "t_zeroecc"); ("include_zero_ecc", "hlm_zeroecc"); ("include_params_dict", "params_dict")] /\
    (wanted o u "include_params_dict" -> exists q c1 c2 p, binary S o u q c1 c2 /\ holds data "params_dict" (DParams p) /\
       slookup p "q" = Some (Some (ANum q)) /\ slookup p "chi1" = Some (Some (AVec c1)) /\ slookup p "chi2" = Some (Some (AVec c2))) /\
    (wanted o u "include_zero_ecc" -> exists q c1 c2 a ano p tz dz, binary S o u q c1 c2 /\ asked o u "zero_ecc_approximant" a /\ nr_kw p a q c1 c2 ano /\
       snd (get_zeroecc_dataDict_for_nr S fuel t d p) = Ok (tz, dz) /\ holds data "t_zeroecc" (DTime tz) /\ holds data "hlm_zeroecc" (DModes dz)).
  Lemma keys_iff o u kw z wp data : check_kwargs_and_set_defaults (Some u) (published o) = Ok kw -> has_true kw "include_zero_ecc" = Ok z -> has_true kw "include_params_dict" = Ok wp ->
    (forall k, slookup data k <> None <-> k = "t" \/ k = "hlm" \/ (z = true /\ (k = "t_zeroecc" \/ k = "hlm_zeroecc")) \/ (wp = true /\ k = "params_dict")) ->
    keys_of o u data [("include_zero_ecc", "t_zeroecc"); ("include_zero_ecc", "hlm_zeroecc"); ("include_params_dict", "params_dict")].
  Proof.
    intros C Z W H k. rewrite H. pose proof (proj1 (wanted_iff _ _ _ _ _ C Z)) as WZ. pose proof (proj1 (wanted_iff _ _ _ _ _ C W)) as WP. split.
    - intros [E|[E|[[E [K|K]]|[E K]]]]; auto; right; right; subst k; [exists "include_zero_ecc"|exists "include_zero_ecc"|exists "include_params_dict"]; (split; [cbn; tauto|tauto]).
    - intros [E|[E|(opt & I & WA)]]; auto. right. right. cbn in I. destruct I as [I|[I|[I|[]]]]; injection I as <- <-; tauto.
  Qed.
  Ltac keytac := intros k; unfold slookup; cbn [app dlookup];
    destruct (String.eqb_spec k "t") as [->|?]; [split; [auto|discriminate]|]; destruct (String.eqb_spec k "hlm") as [->|?]; [split; [auto|discriminate]|];
    destruct (String.eqb_spec k "t_zeroecc") as [->|?]; [split; intuition (try discriminate; try congruence)|];
    destruct (String.eqb_spec k "hlm_zeroecc") as [->|?]; [split; intuition (try discriminate; try congruence)|];
    destruct (String.eqb_spec k "params_dict") as [->|?]; split; intuition (try discriminate; try congruence).

  Lemma params_ok m p : snd (params_of_metadata m) = Ok p -> exists q, mass_ratio m q /\
    p = [("q", Some (ANum q)); ("chi1", Some (AVec (md_chi1 m))); ("chi2", Some (AVec (md_chi2 m))); ("t_relax", Some (ANum (md_relax m)))].
  Proof.
    unfold params_of_metadata. destruct (Qeq_bool (md_m2 m) 0) eqn:E0; [discriminate|]. cbv zeta. intros H. apply lbind_inv in H. destruct H as (q & Q' & H). cbn [lret snd] in H. apply Ok_inj in H. subst p.
    exists q. split; [|reflexivity]. split; [now apply Qeq_bool_neq|]. cbv zeta. destruct (Qlt_bool 0 (1 - md_m1 m / md_m2 m)) eqn:E1.
    - apply Qlt_bool_iff in E1. destruct (Qlt_bool (1 - md_m1 m / md_m2 m) (5 # 10000)) eqn:E2; [|discriminate]. apply Qlt_bool_iff in E2. cbn in Q'. apply Ok_inj in Q'. subst q. right. repeat split; lra.
    - apply Qlt_bool_false in E1. cbn [lret snd] in Q'. apply Ok_inj in Q'. subst q. left. split; [lra|reflexivity].
  Qed.
  Ltac kwtac := let k := fresh "k" in let N := fresh "N" in intros k N; unfold slookup; cbn;
    repeat match goal with |- context [String.eqb k ?c] => destruct (String.eqb_spec k c); [try congruence; subst; try reflexivity; try contradiction|] end; reflexivity.

  Lemma sxs_inv (latest : bool) fuel u data : snd (load_sxs S latest fuel u) = Ok data ->
    exists kw t d grid d1 dir order l dt time orbits i, check_kwargs_and_set_defaults (Some u) (published (sxs_name latest)) = Ok kw /\ nr_outcome fuel (sxs_name latest) u data t d /\
      asked (sxs_name latest) u "data_dir" (Some (AStr dir)) /\ asked (sxs_name latest) u "extrap_order" order /\ asked (sxs_name latest) u "mode_array" (Some (AModes l)) /\
      asked (sxs_name latest) u "deltaTOverM" (Some (ANum dt)) /\ asked (sxs_name latest) u "num_orbits_to_remove_as_junk" (Some (ANum orbits)) /\
      uniform dt grid /\ (forall x, starts grid x -> starts time x) /\ from_file S (fun lm h => sxs_file_mode S latest u dir order l lm time h) time grid l d1 /\
      junk S dir grid d1 orbits i /\ (exists t1, drop_start i grid d1 = (t1, d) /\ shifted t1 t) /\ ((0 < dt)%Q -> merger_at_zero S t d).
  Proof.
    unfold load_sxs. intros H. assert (DF : get_load_waveform_defaults (if latest then "SXSCatalog" else "SXSCatalog_old") = Ok (published (sxs_name latest))) by (unfold sxs_name; apply defaults_published; destruct latest; cbn; tauto).
    rewrite DF, lbind_lift_ok in H. apply lbind_inv in H. destruct H as (kw & C & H). cbn [lift snd] in C. apply lbind_inv in H. destruct H as (hz & HZ & H).
    apply lbind_inv in H. destruct H as ([grid d1] & TD & H). cbn [fst snd] in H. destruct (get_modes_ok S latest u kw grid d1 C TD) as (dir & order & l & dt & time & DIR & OR & MA & DT & U & ST & FF).
    unfold make_return_dict in H. apply lbind_inv in H. destruct H as (orbits & OB & H). apply lbind_inv in H. destruct H as (dir' & DIR' & H). cbn [lift snd] in OB, DIR'. apply num_get in OB. apply str_get in DIR'.
    rewrite DIR in DIR'. injection DIR' as <-. apply lbind_inv in H. destruct H as ([t1 d] & JU & H). cbn [lift snd fst] in JU, H.
    assert (HZE : hz = so_exists S dir FHorizons).
    { unfold check_sxs_data_dir in HZ. apply lbind_inv in HZ. destruct HZ as (v & V & HZ). apply lbind_inv in HZ. destruct HZ as (dd & D2 & HZ). cbn [lift snd] in V, D2. apply sget_ok in V. rewrite DIR in V. apply Some_inj in V. subst v. apply Ok_inj in D2. subst dd.
      do 4 (apply lbind_inv in HZ; let x := fresh in destruct HZ as (x & _ & HZ)). destruct (so_exists S dir FHorizons); [now apply Ok_inj in HZ|]. apply lbind_inv in HZ. destruct HZ as (? & _ & HZ). now apply Ok_inj in HZ. }
    rewrite HZE in JU. destruct (junk_ok _ _ _ _ _ JU) as (i & DR & JK).
    apply lbind_inv in H. destruct H as (p & P & H). cbn [lift snd] in P. apply lbind_inv in H. destruct H as (meta & ME & H). apply lbind_inv in H. destruct H as (params & PA & H).
    apply lbind_inv in H. destruct H as (z & Z & H). apply lbind_inv in H. destruct H as (data1 & D1 & H). apply lbind_inv in H. destruct H as (wp & WP & H). cbn [lift snd lret] in ME, Z, WP, H. apply Ok_inj in H.
    assert (F : fits grid d1) by (intros lm h I; exact (proj1 (proj2 FF lm h I))). pose proof (drop_fits _ _ _ _ _ DR F) as F1.
    exists kw, (shift t1 p), d, grid, d1, dir, order, l, dt, time, orbits, i. split; [exact C|]. split; [|].
    2: { do 5 (split; [eapply asked_of; eassumption|]). do 4 (split; [assumption|]). split; [exists t1; split; [exact DR|apply shift_shifted]|]. intros P0.
         apply (peak_of_shift S t1 d p P F1). injection DR as <- <-. exact (uniform_increasing dt _ P0 (skipn_uniform _ _ _ U)). }
    pose proof (proj1 (wanted_iff _ _ _ _ _ C Z)) as WZ. pose proof (proj1 (wanted_iff _ _ _ _ _ C WP)) as WW.
    assert (BI : z = true \/ wp = true -> exists q c1 c2, binary S (sxs_name latest) u q c1 c2 /\ exists rx, params = [("q", Some (ANum q)); ("chi1", Some (AVec c1)); ("chi2", Some (AVec c2)); ("t_relax", rx)]).
    { intros ZW. unfold metadata_needed in ME. rewrite Z, WP in ME. cbn [bind] in ME. apply Ok_inj in ME. assert (M1 : meta = true) by (destruct ZW; subst; cbn; auto; destruct z; reflexivity). rewrite M1 in PA.
      apply lbind_inv in PA. destruct PA as (m & M & PA). cbn [lift snd] in M. apply params_ok in PA. destruct PA as (q & MR & ->). exists q, (md_chi1 m), (md_chi2 m). split; [|eauto].
      left. split; [destruct latest; cbn; tauto|]. exists dir, m. split; [eapply asked_of; eassumption|]. split; [exact M|]. auto. }
    destruct z.
    - destruct (BI (or_introl eq_refl)) as (q & c1 & c2 & B & rx & ->). apply lbind_inv in D1. destruct D1 as (a & A & D1). apply lbind_inv in D1. destruct D1 as ([tz dz] & GZ & D1). cbn [lift snd lret fst] in A, GZ, D1. apply Ok_inj in D1.
      apply sget_ok in A. assert (KW : nr_kw (sset (sset (spop [("q", Some (ANum q)); ("chi1", Some (AVec c1)); ("chi2", Some (AVec c2)); ("t_relax", rx)] "t_relax") "approximant" a) "mean_ano" (Some (ANum 0))) a q c1 c2 (Some (ANum 0))) by kwtac.
      subst data1 data. destruct wp.
      + split; [reflexivity|]. split; [reflexivity|]. split; [eapply keys_iff; [exact C|exact Z|exact WP|keytac]|]. split; [intros _; exists q, c1, c2; eexists; split; [exact B|]; repeat split|].
        intros _. exists q, c1, c2, a, (Some (ANum 0)). do 3 eexists. split; [exact B|]. split; [eapply asked_of; eassumption|]. split; [exact KW|]. split; [exact GZ|]. split; reflexivity.
      + split; [reflexivity|]. split; [reflexivity|]. split; [eapply keys_iff; [exact C|exact Z|exact WP|keytac]|]. split; [intros W; apply WW in W; discriminate|].
        intros _. exists q, c1, c2, a, (Some (ANum 0)). do 3 eexists. split; [exact B|]. split; [eapply asked_of; eassumption|]. split; [exact KW|]. split; [exact GZ|]. split; reflexivity.
    - apply Ok_inj in D1. subst data1 data. destruct wp.
      + destruct (BI (or_intror eq_refl)) as (q & c1 & c2 & B & rx & ->). split; [reflexivity|]. split; [reflexivity|]. split; [eapply keys_iff; [exact C|exact Z|exact WP|keytac]|]. split; [intros _; exists q, c1, c2; eexists; split; [exact B|]; repeat split|].
        intros W; apply WZ in W; discriminate.
      + split; [reflexivity|]. split; [reflexivity|]. split; [eapply keys_iff; [exact C|exact Z|exact WP|keytac]|]. split; [intros W; apply WW in W; discriminate|intros W; apply WZ in W; discriminate].
  Qed.

  (** the parts that the two LVCNR loaders share *)
  Lemma lvcnr_tail fuel o u kw t d q c1 c2 ecc ano z wp data : check_kwargs_and_set_defaults (Some u) (published o) = Ok kw -> binary S o u q c1 c2 ->
    has_true kw "include_zero_ecc" = Ok z -> has_true kw "include_params_dict" = Ok wp ->
    (exists a, slookup kw "zero_ecc_approximant" = Some a /\ exists zs, (if z then exists x, snd (get_zeroecc_dataDict_for_nr S fuel t d (sset (nr_params q c1 c2 ecc ano) "approximant" a)) = Ok x /\
        zs = [("t_zeroecc", DTime (fst x)); ("hlm_zeroecc", DModes (snd x))] else zs = []) /\
      let ps := if wp then [("params_dict", DParams (nr_params q c1 c2 ecc ano))] else [] in
      data = ([("t", DTime t); ("hlm", DModes d)] ++ zs ++ ps)%list \/ data = ([("t", DTime t); ("hlm", DModes d)] ++ ps ++ zs)%list) ->
    nr_outcome fuel o u data t d.
  Proof.
    intros C B Z WP (a & A & zs & ZS & D). pose proof (proj1 (wanted_iff _ _ _ _ _ C Z)) as WZ. pose proof (proj1 (wanted_iff _ _ _ _ _ C WP)) as WW. cbv zeta in D.
    assert (KW : nr_kw (sset (nr_params q c1 c2 ecc ano) "approximant" a) a q c1 c2 (option_map ANum ano)) by kwtac.
    destruct z; [destruct ZS as ([tz dz] & GZ & ->); cbn [fst snd] in D|subst zs]; destruct wp; destruct D as [->| ->];
      (split; [reflexivity|]; split; [reflexivity|]; split; [eapply keys_iff; [exact C|exact Z|exact WP|keytac]|]; split;
       [first [intros W; apply WW in W; discriminate|intros _; exists q, c1, c2; eexists; split; [exact B|]; repeat split]
       |first [intros W; apply WZ in W; discriminate|intros _; exists q, c1, c2, a, (option_map ANum ano); do 3 eexists; split; [exact B|]; split; [eapply asked_of; eassumption|]; split; [exact KW|]; split; [exact GZ|]; split; reflexivity]]).
  Qed.

  Lemma zero_step (fuel : nat) t d (base : data_dict) params a (z : bool) data1 :
    snd (if z then let! x := get_zeroecc_dataDict_for_nr S fuel t d (sset params "approximant" a) in
                   lret (base ++ [("t_zeroecc", DTime (fst x)); ("hlm_zeroecc", DModes (snd x))])%list else lret base) = Ok data1 ->
    exists zs, (if z then exists x, snd (get_zeroecc_dataDict_for_nr S fuel t d (sset params "approximant" a)) = Ok x /\
        zs = [("t_zeroecc", DTime (fst x)); ("hlm_zeroecc", DModes (snd x))] else zs = []) /\ data1 = (base ++ zs)%list.
  Proof.
    intros H. destruct z.
    - apply lbind_inv in H. destruct H as (x & X & H). apply Ok_inj in H. subst data1. eauto 7.
    - apply Ok_inj in H. exists []. subst. now rewrite app_nil_r.
  Qed.
  Lemma approximant_there o u kw : In o numerical -> check_kwargs_and_set_defaults (Some u) (published o) = Ok kw -> exists a, slookup kw "zero_ecc_approximant" = Some a.
  Proof.
    intros I C. destruct (checked _ _ _ (published_nodup o) C) as [_ L]. rewrite L, slookup_app. destruct (slookup u "zero_ecc_approximant"); [eauto|].
    cbn in I. destruct I as [<-|[<-|[<-|[<-|[]]]]]; eexists; reflexivity.
  Qed.
  Lemma lvcnr_inv fuel u data : snd (load_lvcnr_waveform S fuel u) = Ok data ->
    exists kw path f dt om raw t0 p orbits i t d, check_kwargs_and_set_defaults (Some u) (published "LVCNR") = Ok kw /\ nr_outcome fuel "LVCNR" u data t d /\
      asked "LVCNR" u "filepath" (Some (AStr path)) /\ asked "LVCNR" u "deltaTOverM" (Some (ANum dt)) /\ asked "LVCNR" u "Momega0" (Some (ANum om)) /\
      asked "LVCNR" u "num_orbits_to_remove_as_junk" (Some (ANum orbits)) /\ so_lvcnr S path = Ok f /\
      nr_hlms f (dt * time_dimless_to_mks S 10)%Q (nr_m1 f * 10 / (nr_m1 f + nr_m2 f) * so_msun S)%Q (nr_m2 f * 10 / (nr_m1 f + nr_m2 f) * so_msun S)%Q (1000000 * so_pc S)%Q
        (let f_low := (om / np_pi / time_dimless_to_mks S 10)%Q in if Qeq_bool f_low 0 then (nr_flower f / 10)%Q else f_low) = Ok raw /\
      (exists h22, mode_of raw (2, 2)%Z h22 /\ t0 = map (fun i => inject_Z (Z.of_nat i) * (dt * time_dimless_to_mks S 10) / time_dimless_to_mks S 10)%Q (seq 0 (length h22))) /\
      let d0 := map (fun kv => (fst kv, map (cscale (/ amplitude_dimless_to_mks S 10 1)%Q) (snd kv))) raw in
      peak_of S t0 d0 = Ok p /\ remove_junk neg (shift t0 p) d0 orbits = Ok (t, d) /\ drop_start i (shift t0 p) d0 = (t, d).
  Proof.
    unfold load_lvcnr_waveform. intros H. rewrite (defaults_published "LVCNR"), lbind_lift_ok in H by (cbn; tauto). apply lbind_inv in H. destruct H as (kw & C & H). cbn [lift snd] in C.
    apply lbind_inv in H. destruct H as (path & PT & H). apply lbind_inv in H. destruct H as (dt & DT & H). apply lbind_inv in H. destruct H as (om & OM & H). cbn [lift snd] in PT, DT, OM. apply str_get in PT. apply num_get in DT, OM. cbv zeta in H.
    apply lbind_inv in H. destruct H as (f & F & H). apply lbind_inv in H. destruct H as (raw & RW & H). apply lbind_inv in H. destruct H as (h22 & H22 & H). apply lbind_inv in H. destruct H as (p & P & H).
    apply lbind_inv in H. destruct H as (orbits & OB & H). apply lbind_inv in H. destruct H as ([t d] & JU & H). apply lbind_inv in H. destruct H as (z & Z & H). apply lbind_inv in H. destruct H as (data1 & D1 & H).
    apply lbind_inv in H. destruct H as (wp & WP & H). cbn [lift snd lret fst] in *. apply Ok_inj in H. apply num_get in OB. destruct (removed_drop _ _ _ _ JU) as [i DR].
    destruct (approximant_there "LVCNR" u kw ltac:(cbn; tauto) C) as [a A].
    assert (D1' : snd (if z then let! x := get_zeroecc_dataDict_for_nr S fuel t d (sset (nr_params (nr_m1 f * 10 / (nr_m1 f + nr_m2 f) * so_msun S / (nr_m2 f * 10 / (nr_m1 f + nr_m2 f) * so_msun S))%Q (fst (nr_spins f 0 10)) (snd (nr_spins f 0 10)) (nr_ecc f) (nr_anomaly f)) "approximant" a) in
                   lret ([("t", DTime t); ("hlm", DModes d)] ++ [("t_zeroecc", DTime (fst x)); ("hlm_zeroecc", DModes (snd x))])%list else lret [("t", DTime t); ("hlm", DModes d)]) = Ok data1).
    { destruct z; [|exact D1]. rewrite (proj2 (sget_ok kw _ a) A), lbind_lift_ok in D1. exact D1. }
    destruct (zero_step _ _ _ _ _ _ _ _ D1') as (zs & ZS & ->).
    exists kw, path, f, dt, om, raw, (map (fun i => inject_Z (Z.of_nat i) * (dt * time_dimless_to_mks S 10) / time_dimless_to_mks S 10)%Q (seq 0 (length h22))), p, orbits, i, t, d.
    split; [exact C|]. split.
    - eapply lvcnr_tail; [exact C| |exact Z|exact WP|exists a; split; [exact A|]; exists zs; split; [exact ZS|]; left; subst data; destruct wp; [now rewrite <- app_assoc|now rewrite app_nil_r]].
      right. left. split; [reflexivity|]. exists path, f. split; [eapply asked_of; eassumption|]. split; [exact F|]. split; [now destruct (nr_spins f 0 10)|]. intros M0 M1 M2. field. repeat split; lra.
    - do 4 (split; [eapply asked_of; eassumption|]). split; [exact F|]. split; [exact RW|]. split.
      + apply mget_ok in H22. unfold mode_of in H22. clear - H22.
        assert (E : forall (f0 : list cnum -> list cnum) r x, dlookup mode_eqb (map (fun kv => (fst kv, f0 (snd kv))) r) (2, 2)%Z = Some x -> exists y, dlookup mode_eqb r (2, 2)%Z = Some y /\ x = f0 y).
        { intros f0 r x. induction r as [|[k v] r IH]; cbn [map dlookup fst snd]; [discriminate|]. destruct (mode_eqb (2, 2)%Z k); [intros X; apply Some_inj in X; eauto|exact IH]. }
        apply (E (map (cscale (/ amplitude_dimless_to_mks S 10 1)%Q))) in H22. destruct H22 as (y & Y & ->). exists y. split; [exact Y|]. now rewrite map_length.
      + cbv zeta. split; [exact P|]. split; [exact JU|exact DR].
  Qed.
  Lemma hack_inv fuel u data : snd (load_lvcnr_hack S fuel u) = Ok data ->
    exists kw path f dt orbits grid amp ph i t d, check_kwargs_and_set_defaults (Some u) (published "LVCNR_hack") = Ok kw /\ nr_outcome fuel "LVCNR_hack" u data t d /\
      asked "LVCNR_hack" u "filepath" (Some (AStr path)) /\ asked "LVCNR_hack" u "deltaTOverM" (Some (ANum dt)) /\ asked "LVCNR_hack" u "num_orbits_to_remove_as_junk" (Some (ANum orbits)) /\
      so_raw S path = Ok f /\ (exists a0 p0 an pn, starts (ra_t_amp f) a0 /\ starts (ra_t_phase f) p0 /\ last_of (ra_t_amp f) = Ok an /\ last_of (ra_t_phase f) = Ok pn /\ arange (Qmaxb a0 p0) (Qminb an pn) dt = Ok grid) /\
      resample S grid (ra_t_amp f) (ra_amp f) = Ok amp /\ resample S grid (ra_t_phase f) (ra_phase f) = Ok ph /\
      let d0 := [((2, 2)%Z, map2 (fun a p => cscale a (so_exp S p)) amp ph)] in remove_junk neg grid d0 orbits = Ok (t, d) /\ drop_start i grid d0 = (t, d).
  Proof.
    unfold load_lvcnr_hack. intros H. rewrite (defaults_published "LVCNR_hack"), lbind_lift_ok in H by (cbn; tauto). apply lbind_inv in H. destruct H as (kw & C & H). cbn [lift snd] in C.
    apply lbind_inv in H. destruct H as (path & PT & H). apply lbind_inv in H. destruct H as (f & F & H). apply lbind_inv in H. destruct H as (a0 & A0 & H). apply lbind_inv in H. destruct H as (p0 & P0 & H).
    apply lbind_inv in H. destruct H as (an & AN & H). apply lbind_inv in H. destruct H as (pn & PN & H). apply lbind_inv in H. destruct H as (dt & DT & H). apply lbind_inv in H. destruct H as (grid & G & H).
    apply lbind_inv in H. destruct H as (amp & AM & H). apply lbind_inv in H. destruct H as (ph & PH & H). apply lbind_inv in H. destruct H as (orbits & OB & H). apply lbind_inv in H. destruct H as ([t d] & JU & H). cbv zeta in H.
    apply lbind_inv in H. destruct H as (wp & WP & H). apply lbind_inv in H. destruct H as (z & Z & H). cbn [lift snd lret fst] in *. apply str_get in PT. apply num_get in DT, OB. apply start_get in A0, P0. destruct (removed_drop _ _ _ _ JU) as [i DR].
    destruct (approximant_there "LVCNR_hack" u kw ltac:(cbn; tauto) C) as [a A].
    set (ps := if wp then [("params_dict", DParams (nr_params (ra_m1 f / ra_m2 f)%Q (ra_chi1 f) (ra_chi2 f) (Some (ra_ecc f)) (Some (ra_anomaly f))))] else []).
    assert (H' : snd (if z then let! x := get_zeroecc_dataDict_for_nr S fuel t d (sset (nr_params (ra_m1 f / ra_m2 f)%Q (ra_chi1 f) (ra_chi2 f) (Some (ra_ecc f)) (Some (ra_anomaly f))) "approximant" a) in
                   lret (([("t", DTime t); ("hlm", DModes d)] ++ ps) ++ [("t_zeroecc", DTime (fst x)); ("hlm_zeroecc", DModes (snd x))])%list else lret ([("t", DTime t); ("hlm", DModes d)] ++ ps)%list) = Ok data).
    { unfold ps. destruct z; [rewrite (proj2 (sget_ok kw _ a) A), lbind_lift_ok in H|]; destruct wp; exact H. }
    destruct (zero_step _ _ _ _ _ _ _ _ H') as (zs & ZS & ->).
    exists kw, path, f, dt, orbits, grid, amp, ph, i, t, d. split; [exact C|]. split.
    - eapply lvcnr_tail; [exact C| |exact Z|exact WP|exists a; split; [exact A|]; exists zs; split; [exact ZS|]; right; fold ps; now rewrite <- app_assoc].
      right. right. split; [reflexivity|]. exists path, f. split; [eapply asked_of; eassumption|]. auto.
    - do 3 (split; [eapply asked_of; eassumption|]). split; [exact F|]. split; [exists a0, p0, an, pn; auto|]. do 2 (split; [assumption|]). cbv zeta. auto.
  Qed.
  Lemma nr_inv fuel o u data : In o numerical -> snd (load_waveform S fuel o u) = Ok data -> exists t d, nr_outcome fuel o u data t d.
  Proof.
    intros I H. cbn in I. unfold load_waveform in H. destruct I as [<-|[<-|[<-|[<-|[]]]]]; cbn [String.eqb Ascii.eqb Bool.eqb] in H.
    - apply sxs_inv in H. destruct H as (kw & t & d & H). do 9 (destruct H as [? H]). destruct H as (_ & H & _). eauto.
    - apply sxs_inv in H. destruct H as (kw & t & d & H). do 9 (destruct H as [? H]). destruct H as (_ & H & _). eauto.
    - apply lvcnr_inv in H. do 12 (destruct H as [? H]). destruct H as (_ & H & _). eauto.
    - apply hack_inv in H. do 11 (destruct H as [? H]). destruct H as (_ & H & _). eauto.
  Qed.
End Inv.
