(** C82-C86 and C90 for numerical waveforms. *)
From Coq Require Import Qabs Lia Lqa.
From Verif Require Import Base BaseLemmas UtilsModel UtilsSpec UtilsLemmas MeasureModel DataModel DataLemmas2 HelperModel HelperSpec HelperLemmas LoadModel LoadSpec LoadLemmas LoadKeys LoadWave LoadLAL LoadZero LoadSpins LoadNR LoadSXS LoadInv.
Open Scope string_scope.
Open Scope nat_scope.

Lemma lbind_log {A B} (m : lg A) (f : A -> lg B) a w : snd m = Ok a -> In w (fst (f a)) -> In w (fst (lbind m f)).
Proof. intros H I. unfold lbind. rewrite H. cbn [fst]. apply in_or_app. now right. Qed.
Lemma lbind_log_l {A B} (m : lg A) (f : A -> lg B) w : In w (fst m) -> In w (fst (lbind m f)).
Proof. intros I. unfold lbind. destruct (snd m); cbn [fst]; [apply in_or_app; now left|exact I]. Qed.
Lemma drop_uniform step t i : uniform step t -> uniform step (skipn i t).
Proof. apply skipn_uniform. Qed.
Lemma Qdiv_min a b c : ~ (c == 0)%Q -> (a / c - b / c == (a - b) / c)%Q.
Proof. intros N. field. exact N. Qed.

Section Claims.
  Variable S : sources.
  (** ** C82 *)
  Lemma asked_unique o u k v w : asked o u k v -> asked o u k w -> v = w.
  Proof. unfold asked. intros -> E. now apply Some_inj in E. Qed.
  Lemma binary_spins o u q c1 c2 q' c1' c2' : binary S o u q c1 c2 -> binary S o u q' c1' c2' -> c1 = c1' /\ c2 = c2'.
  Proof.
    unfold binary. intros [[I (dir & m & A & M & _ & -> & ->)]|[[-> (path & f & A & F & E & _)]|[-> (path & f & A & F & -> & -> & _)]]] H.
    - destruct H as [[_ (dir' & m' & A' & M' & _ & -> & ->)]|[[E _]|[E _]]]; [|subst o; cbn in I; intuition discriminate|subst o; cbn in I; intuition discriminate].
      pose proof (asked_unique _ _ _ _ _ A A') as E. injection E as <-. unfold metadata_of in *. rewrite M in M'. apply Ok_inj in M'. now subst.
    - destruct H as [[I _]|[[_ (path' & f' & A' & F' & E' & _)]|[X _]]]; [cbn in I; intuition discriminate| |discriminate].
      pose proof (asked_unique _ _ _ _ _ A A') as X. injection X as <-. rewrite F in F'. apply Ok_inj in F'. subst f'. rewrite <- E in E'. now injection E' as <- <-.
    - destruct H as [[I _]|[[X _]|[_ (path' & f' & A' & F' & -> & -> & _)]]]; [cbn in I; intuition discriminate|discriminate|].
      pose proof (asked_unique _ _ _ _ _ A A') as X. injection X as <-. rewrite F in F'. apply Ok_inj in F'. now subst.
  Qed.
  Lemma circular_good ap q c1 c2 ma om t d : generates S (nr_circular ap q c1 c2 ma om) t d -> ~ bad_spin c1 /\ ~ bad_spin c2.
  Proof.
    intros (fuel & data & H & _). split; intros B.
    - destruct (spins_refused S fuel (nr_circular ap q c1 c2 ma om) "chi1" c1 (or_introl eq_refl) eq_refl B) as [e E]. congruence.
    - destruct (spins_refused S fuel (nr_circular ap q c1 c2 ma om) "chi2" c2 (or_intror eq_refl) eq_refl B) as [e E]. congruence.
  Qed.
  Lemma precessing_refused fuel o u q c1 c2 : In o numerical -> wanted o u "include_zero_ecc" -> binary S o u q c1 c2 -> bad_spin c1 \/ bad_spin c2 ->
    exists e, snd (load_waveform S fuel o u) = Err e.
  Proof.
    intros I W B BAD. destruct (snd (load_waveform S fuel o u)) as [data|e] eqn:H; [exfalso|eauto].
    destruct (nr_inv S fuel o u data I H) as (t & d & _ & _ & _ & _ & Z). destruct (Z W) as (q' & c1' & c2' & a & ano & p & tz & dz & B' & _ & K & G & _).
    destruct (nr_zeroecc S _ _ _ _ _ _ _ _ _ _ _ K G) as (ap & ma & tm & t0 & z1 & z2 & f0 & n & tg & dg & i & _ & _ & _ & _ & _ & _ & _ & GE & _).
    destruct (circular_good _ _ _ _ _ _ _ _ GE) as [G1 G2]. destruct (binary_spins _ _ _ _ _ _ _ _ B B') as [-> ->]. tauto.
  Qed.

  (** ** C83 *)
  Lemma counterpart fuel o u data : In o numerical -> snd (load_waveform S fuel o u) = Ok data -> wanted o u "include_zero_ecc" ->
    exists q c1 c2 ap ma t d tz dz tm t0 z1 z2 f0 n tg dg i, binary S o u q c1 c2 /\ asked o u "zero_ecc_approximant" (Some (AStr ap)) /\
      holds data "t" (DTime t) /\ holds data "hlm" (DModes d) /\ holds data "t_zeroecc" (DTime tz) /\ holds data "hlm_zeroecc" (DModes dz) /\
      peak_time S t d = Ok tm /\ starts t t0 /\ nth_error c1 2 = Some z1 /\ nth_error c2 2 = Some z2 /\
      so_freq S ((tm - t0) * (10 * so_mtsun S))%Q (q * 10 / (1 + q) * so_msun S)%Q (10 / (1 + q) * so_msun S)%Q z1 z2 = Ok f0 /\
      let om := (f0 * (10 * so_mtsun S) * np_pi)%Q in
      generates S (nr_circular ap q c1 c2 ma (tries (1 # 2) om n)) tg dg /\ no_later tg t0 /\
      (forall m, m < n -> exists t' d', generates S (nr_circular ap q c1 c2 ma (tries (1 # 2) om m)) t' d' /\ later t' t0) /\
      nearest tg t0 i /\ without_first (if 10 <=? i then i - 10 else length tg - (10 - i)) tg dg tz dz.
  Proof.
    intros I H W. destruct (nr_inv S fuel o u data I H) as (t & d & T & D & _ & _ & Z). destruct (Z W) as (q & c1 & c2 & a & ano & p & tz & dz & B & A & K & G & HT & HD).
    destruct (nr_zeroecc S _ _ _ _ _ _ _ _ _ _ _ K G) as (ap & ma & tm & t0 & z1 & z2 & f0 & n & tg & dg & i & -> & -> & R). cbv zeta in R.
    exists q, c1, c2, ap, ma, t, d, tz, dz, tm, t0, z1, z2, f0, n, tg, dg, i. split; [exact B|]. split; [exact A|]. do 4 (split; [assumption|]). exact R.
  Qed.
  Lemma covers fuel o u data : In o numerical -> snd (load_waveform S fuel o u) = Ok data -> wanted o u "include_zero_ecc" ->
    exists q c1 c2 ap ma om t t0 tz dz tg dg, binary S o u q c1 c2 /\ holds data "t" (DTime t) /\ starts t t0 /\ holds data "t_zeroecc" (DTime tz) /\ holds data "hlm_zeroecc" (DModes dz) /\
      generates S (nr_circular ap q c1 c2 ma om) tg dg /\ no_later tg t0 /\
      ((exists x, nth_error tg 10 = Some x /\ (x <= t0)%Q) -> no_later tz t0 /\ exists k, without_first k tg dg tz dz /\ merger_at_zero S tg dg) /\
      uniform (1 # 10) tz.
  Proof.
    intros I H W. destruct (counterpart fuel o u data I H W) as (q & c1 & c2 & ap & ma & t & d & tz & dz & tm & t0 & z1 & z2 & f0 & n & tg & dg & i & B & _ & T & _ & HT & HD & _ & ST & _ & _ & _ & R).
    cbv zeta in R. destruct R as (G & NL & _ & N & WF). destruct (generates_uniform S _ _ _ _ _ _ _ _ G) as [U MZ].
    exists q, c1, c2, ap, ma. eexists. exists t, t0, tz, dz, tg, dg. do 5 (split; [assumption|]). split; [exact G|]. split; [exact NL|].
    pose proof (uniform_increasing (1 # 10) _ ltac:(reflexivity) U) as INC. split.
    - intros (x & X & LX). assert (I10 : 10 <= i).
      { destruct (Nat.lt_ge_cases i 10) as [L|L]; [|exact L]. exfalso. destruct (nearest_split _ _ _ INC N 10 x X) as [_ Y]. specialize (Y L). lra. }
      rewrite (proj2 (Nat.leb_le 10 i) I10) in WF. split; [|eauto]. destruct WF as (-> & _). destruct N as (a & A & _ & M2).
      assert (Y : exists y, nth_error tg (i - 10) = Some y).
      { destruct (nth_error tg (i - 10)) as [y|] eqn:E; [eauto|]. apply nth_error_None in E. assert (i < length tg) by (apply nth_error_Some; congruence). lia. }
      destruct Y as [y Y]. exists y. split; [unfold starts; rewrite nth_error_skipn, Nat.add_0_r; exact Y|].
      destruct (Qlt_le_dec t0 y) as [L|L]; [|exact L]. exfalso. assert (i - 10 < i) as LT by lia. specialize (M2 (i - 10) y LT Y). pose proof (increasing_lt _ _ _ _ _ INC LT Y A) as YA.
      unfold distance in M2. rewrite (Qabs_pos (a - t0)), (Qabs_pos (y - t0)) in M2 by lra. lra.
    - destruct WF as (-> & _). now apply drop_uniform.
  Qed.

  (** ** C84 *)
  Lemma metadata_ratio fuel o u data : In o ["SXSCatalog"; "SXSCatalog_old"] -> snd (load_waveform S fuel o u) = Ok data -> wanted o u "include_params_dict" ->
    exists dir m q p, asked o u "data_dir" (Some (AStr dir)) /\ metadata_of S dir m /\ mass_ratio m q /\ (1 <= q)%Q /\ holds data "params_dict" (DParams p) /\
      slookup p "q" = Some (Some (ANum q)) /\ slookup p "chi1" = Some (Some (AVec (md_chi1 m))) /\ slookup p "chi2" = Some (Some (AVec (md_chi2 m))).
  Proof.
    intros I H W. assert (IN : In o numerical) by (cbn in *; tauto). destruct (nr_inv S fuel o u data IN H) as (t & d & _ & _ & _ & P & _). destruct (P W) as (q & c1 & c2 & p & B & HP & Q1 & Q2 & Q3).
    destruct B as [[_ (dir & m & A & M & R & -> & ->)]|[[-> _]|[-> _]]]; [|cbn in I; intuition discriminate|cbn in I; intuition discriminate].
    exists dir, m, q, p. do 3 (split; [assumption|]). split; [destruct R as [_ [[R ->]|(_ & _ & ->)]]; lra|]. auto.
  Qed.
  Lemma ratio_refused fuel o u dir m : In o ["SXSCatalog"; "SXSCatalog_old"] -> wanted o u "include_params_dict" \/ wanted o u "include_zero_ecc" ->
    asked o u "data_dir" (Some (AStr dir)) -> metadata_of S dir m -> (md_m2 m == 0 \/ md_m1 m / md_m2 m <= 1 - (5 # 10000))%Q ->
    exists e, snd (load_waveform S fuel o u) = Err e.
  Proof.
    intros I W A M R. destruct (snd (load_waveform S fuel o u)) as [data|e] eqn:H; [exfalso|eauto]. assert (IN : In o numerical) by (cbn in *; tauto).
    destruct (nr_inv S fuel o u data IN H) as (t & d & _ & _ & _ & P & Z).
    assert (B : exists q c1 c2, binary S o u q c1 c2) by (destruct W as [W|W]; [destruct (P W) as (q & c1 & c2 & p & B & _)|destruct (Z W) as (q & c1 & c2 & a & an & p & tz & dz & B & _)]; eauto).
    destruct B as (q & c1 & c2 & B). destruct B as [[_ (dir' & m' & A' & M' & [N2 MR] & _)]|[[-> _]|[-> _]]]; [|cbn in I; intuition discriminate|cbn in I; intuition discriminate].
    pose proof (asked_unique _ _ _ _ _ A A') as E. injection E as <-. unfold metadata_of in *. rewrite M in M'. apply Ok_inj in M'. subst m'. cbv zeta in MR.
    destruct R as [R|R]; [contradiction|]. destruct MR as [[MR _]|[MR _]]; lra.
  Qed.

  (** ** C85 *)
  Lemma missing_file fuel o u dir : In o ["SXSCatalog"; "SXSCatalog_old"] -> known u (published o) -> asked o u "data_dir" (Some (AStr dir)) ->
    so_dir S dir = false \/ (exists f, needs o u f /\ so_exists S dir f = false) -> snd (load_waveform S fuel o u) = Err FileNotFoundError.
  Proof.
    intros I K A M. destruct (checked_total _ _ K) as [kw C]. destruct (checked _ _ _ (published_nodup o) C) as [_ L].
    assert (E : exists latest : bool, o = sxs_name latest /\ load_waveform S fuel o u = load_sxs S latest fuel u).
    { cbn in I. destruct I as [<-|[<-|[]]]; [exists true|exists false]; split; reflexivity. }
    destruct E as (latest & -> & ->). unfold load_sxs.
    assert (DF : get_load_waveform_defaults (if latest then "SXSCatalog" else "SXSCatalog_old") = Ok (published (sxs_name latest))) by (unfold sxs_name; apply defaults_published; destruct latest; cbn; tauto).
    rewrite DF, !lbind_lift_ok, C, lbind_lift_ok.
    assert (CH : snd (check_sxs_data_dir S latest kw) = Err FileNotFoundError).
    { unfold check_sxs_data_dir. rewrite (proj2 (sget_ok kw "data_dir" (Some (AStr dir)))) by (rewrite L; exact A). rewrite !lbind_lift_ok. cbn [str]. rewrite lbind_lift_ok.
      destruct (so_dir S dir) eqn:SD; [|reflexivity]. destruct M as [M|(f & NF & EX)]; [discriminate|]. rewrite lbind_lift_ok.
      assert (G : forall k, slookup (published (sxs_name latest)) k <> None -> exists v, slookup kw k = Some v).
      { intros k P. rewrite L, slookup_app. destruct (slookup u k); [eauto|]. destruct (slookup (published (sxs_name latest)) k); [eauto|congruence]. }
      destruct (G "extrap_order" ltac:(destruct latest; discriminate)) as [ov OV]. destruct (G "include_zero_ecc" ltac:(destruct latest; discriminate)) as [zv ZV]. destruct (G "include_params_dict" ltac:(destruct latest; discriminate)) as [pv PV].
      rewrite (proj2 (sget_ok kw _ _) OV), lbind_lift_ok. unfold metadata_needed, has_true. rewrite (proj2 (sget_ok kw _ _) ZV), (proj2 (sget_ok kw _ _) PV). cbn [bind]. rewrite lbind_lift_ok.
      assert (W : forall k v, slookup kw k = Some v -> (wanted (sxs_name latest) u k -> on v = true) /\ (unwanted (sxs_name latest) u k -> on v = false)).
      { intros k v V. pose proof (asked_of _ _ _ _ _ C V) as AV. split; intros (w & WA & ON); rewrite (asked_unique _ _ _ _ _ AV WA); exact ON. }
      match goal with |- context [forallb ?g ?fs] => assert (FB : forallb g fs = false) end; [|rewrite FB; reflexivity].
      apply not_true_iff_false. intros FB. rewrite forallb_forall in FB. assert (IF : In f ((if latest then [FStrainH5 ov; FStrainJson ov] else [FOld]) ++ (if on zv || on pv || negb match slookup kw "keep_memory" with Some v => on v | None => true end then [if latest then FMetaJson else FMetaTxt] else []))%list).
      2: { specialize (FB f IF). congruence. }
      apply in_or_app. destruct latest; cbn [sxs_name needs] in *.
      - destruct NF as [(o & OA & OF)|[-> NM]].
        + left. pose proof (asked_unique _ _ _ _ _ (asked_of _ _ _ _ _ C OV) OA) as <-. cbn. destruct OF; subst; auto.
        + right. assert (BB : on zv || on pv || negb match slookup kw "keep_memory" with Some v => on v | None => true end = true); [|rewrite BB; now left].
          destruct NM as [NM|[NM|NM]]; [rewrite (proj1 (W _ _ ZV) NM); reflexivity|rewrite (proj1 (W _ _ PV) NM); now destruct (on zv)|].
          destruct (G "keep_memory" ltac:(discriminate)) as [mv MV]. rewrite MV, (proj2 (W _ _ MV) NM). now destruct (on zv), (on pv).
      - destruct NF as [->|[-> NM]]; [left; now left|]. right. assert (BB : on zv || on pv || negb match slookup kw "keep_memory" with Some v => on v | None => true end = true); [|rewrite BB; now left].
        destruct NM as [NM|NM]; [rewrite (proj1 (W _ _ ZV) NM); reflexivity|rewrite (proj1 (W _ _ PV) NM); now destruct (on zv)]. }
    unfold lbind. rewrite CH. reflexivity.
  Qed.
  Lemma no_horizons fuel o u data dir : In o ["SXSCatalog"; "SXSCatalog_old"] -> snd (load_waveform S fuel o u) = Ok data -> asked o u "data_dir" (Some (AStr dir)) ->
    so_exists S dir FHorizons = false -> In "no Horizons.h5" (fst (load_waveform S fuel o u)).
  Proof.
    intros I H A NH. assert (E : exists latest : bool, o = sxs_name latest /\ load_waveform S fuel o u = load_sxs S latest fuel u).
    { cbn in I. destruct I as [<-|[<-|[]]]; [exists true|exists false]; split; reflexivity. }
    destruct E as (latest & -> & E). rewrite E in *. unfold load_sxs in *.
    assert (DF : get_load_waveform_defaults (if latest then "SXSCatalog" else "SXSCatalog_old") = Ok (published (sxs_name latest))) by (unfold sxs_name; apply defaults_published; destruct latest; cbn; tauto).
    rewrite DF, !lbind_lift_ok in *. apply lbind_inv in H. destruct H as (kw & C & H). cbn [lift snd] in C. rewrite C, lbind_lift_ok. apply lbind_inv in H. destruct H as (hz & HZ & H). apply lbind_log_l.
    unfold check_sxs_data_dir in *. apply lbind_inv in HZ. destruct HZ as (v & V & HZ). cbn [lift snd] in V. rewrite V, lbind_lift_ok. apply sget_ok in V. pose proof (asked_unique _ _ _ _ _ (asked_of _ _ _ _ _ C V) A) as ->.
    apply lbind_inv in HZ. destruct HZ as (dd & DD & HZ). cbn [str lift snd] in DD. apply Ok_inj in DD. subst dd. cbn [str]. rewrite lbind_lift_ok.
    do 4 (apply lbind_inv in HZ; let x := fresh "x" in let X := fresh "X" in destruct HZ as (x & X & HZ); eapply lbind_log; [exact X|]). rewrite NH. left. reflexivity.
  Qed.

  (** ** C86 *)
  Lemma sxs_data fuel o u data : In o ["SXSCatalog"; "SXSCatalog_old"] -> snd (load_waveform S fuel o u) = Ok data ->
    exists t d l dt, holds data "t" (DTime t) /\ holds data "hlm" (DModes d) /\ asked o u "mode_array" (Some (AModes l)) /\ asked o u "deltaTOverM" (Some (ANum dt)) /\
      (forall lm, In lm (map fst d) <-> In lm l) /\ fits t d /\ uniform dt t /\ ((0 < dt)%Q -> merger_at_zero S t d).
  Proof.
    intros I H. assert (E : exists latest : bool, o = sxs_name latest /\ load_waveform S fuel o u = load_sxs S latest fuel u).
    { cbn in I. destruct I as [<-|[<-|[]]]; [exists true|exists false]; split; reflexivity. }
    destruct E as (latest & -> & E). rewrite E in H. apply sxs_inv in H.
    destruct H as (kw & t & d & grid & d1 & dir & order & l & dt & time & orbits & i & C & (T & D & _) & _ & _ & MA & DT & _ & U & _ & FF & _ & (t1 & DR & (c & ->)) & MZ).
    exists (shift t1 c), d, l, dt. do 4 (split; [assumption|]). assert (F : fits grid d1) by (intros lm h X; exact (proj1 (proj2 FF lm h X))).
    pose proof (drop_fits _ _ _ _ _ DR F) as F1. injection DR as <- <-. split; [intros lm; rewrite map_map; cbn [fst]; rewrite <- (proj1 FF lm); reflexivity|].
    split; [intros lm h X; rewrite shift_length; exact (F1 lm h X)|]. split; [now apply shift_uniform, skipn_uniform|exact MZ].
  Qed.
  Lemma sxs_values (latest : bool) fuel u data : let o := if latest then "SXSCatalog" else "SXSCatalog_old" in snd (load_waveform S fuel o u) = Ok data ->
    exists t d dir order l orbits time grid d1 i t1, holds data "t" (DTime t) /\ holds data "hlm" (DModes d) /\ asked o u "data_dir" (Some (AStr dir)) /\ asked o u "extrap_order" order /\
      asked o u "mode_array" (Some (AModes l)) /\ asked o u "num_orbits_to_remove_as_junk" (Some (ANum orbits)) /\ (forall x, starts grid x -> starts time x) /\
      (forall lm h1, In (lm, h1) d1 -> exists h, (if latest then catalog_mode S u dir order lm time h else old_mode S dir order l lm time h) /\ interpolated S time h grid h1) /\
      junk S dir grid d1 orbits i /\ without_first i grid d1 t1 d /\ shifted t1 t.
  Proof.
    intros o H. assert (E : load_waveform S fuel o u = load_sxs S latest fuel u) by (unfold o; destruct latest; reflexivity). rewrite E in H. apply sxs_inv in H.
    destruct H as (kw & t & d & grid & d1 & dir & order & l & dt & time & orbits & i & C & (T & D & _) & A1 & A2 & A3 & _ & A4 & _ & ST & FF & J & (t1 & DR & SH) & _).
    exists t, d, dir, order, l, orbits, time, grid, d1, i, t1. do 7 (split; [assumption|]). split; [intros lm h1 X; exact (proj2 (proj2 FF lm h1 X))|]. split; [exact J|]. split; [exact (drop_ok _ _ _ _ _ DR)|exact SH].
  Qed.
  Lemma lvcnr_data fuel u data : snd (load_waveform S fuel "LVCNR" u) = Ok data -> (0 < so_mtsun S)%Q ->
    exists t d dt t1 d1 i, holds data "t" (DTime t) /\ holds data "hlm" (DModes d) /\ asked "LVCNR" u "deltaTOverM" (Some (ANum dt)) /\
      fits t d /\ uniform dt t /\ without_first i t1 d1 t d /\ ((0 < dt)%Q -> merger_at_zero S t1 d1).
  Proof.
    intros H MT. unfold load_waveform in H. cbn [String.eqb Ascii.eqb Bool.eqb] in H. apply lvcnr_inv in H.
    destruct H as (kw & path & f & dt & om & raw & t0 & p & orbits & i & t & d & C & (T & D & _) & _ & DT & _ & _ & _ & _ & (h22 & H22 & ET) & P & _ & DR). cbv zeta in P.
    set (d0 := map (fun kv => (fst kv, map (cscale (/ amplitude_dimless_to_mks S 10 1)%Q) (snd kv))) raw) in *.
    assert (U : uniform dt t0).
    { intros j a b A B. rewrite ET in A, B. rewrite nth_error_map in A, B. destruct (nth_error (seq 0 (length h22)) j) as [x|] eqn:X; [|discriminate]. destruct (nth_error (seq 0 (length h22)) (Datatypes.S j)) as [y|] eqn:Y; [|discriminate].
      apply nth_seq in X, Y. destruct X as [-> _], Y as [-> _]. apply Some_inj in A, B. subst a b. rewrite inject_S. unfold time_dimless_to_mks. field. lra. }
    assert (F : fits t0 d0).
    { intros lm h I. unfold peak_of in P. apply bind_ok in P. destruct P as (aa & AA & _). destruct (amplitude_length S _ _ AA) as [_ LL]. rewrite (LL _ _ I). rewrite ET, map_length, seq_length.
      assert (I2 : In ((2, 2)%Z, map (cscale (/ amplitude_dimless_to_mks S 10 1)%Q) h22) d0).
      { unfold d0. apply in_map_iff. exists ((2, 2)%Z, h22). split; [reflexivity|]. now apply mode_in. }
      rewrite <- (LL _ _ I2), map_length. reflexivity. }
    assert (F' : fits (shift t0 p) d0) by (intros lm h I; rewrite shift_length; exact (F lm h I)).
    exists t, d, dt, (shift t0 p), d0, i. do 3 (split; [assumption|]). split; [exact (drop_fits _ _ _ _ _ DR F')|]. split; [injection DR as <- <-; now apply skipn_uniform, shift_uniform|].
    split; [exact (drop_ok _ _ _ _ _ DR)|]. intros P0. apply (peak_of_shift S t0 d0 p P F). exact (uniform_increasing dt _ P0 U).
  Qed.
  Lemma map2_len {A B C} (g : A -> B -> C) a b n : length a = n -> length b = n -> length (map2 g a b) = n.
  Proof. revert b n. induction a as [|x a IH]; intros [|y b] n L1 L2; cbn in *; try lia. destruct n; [lia|]. f_equal. apply IH; lia. Qed.
  Lemma hack_data fuel u data : snd (load_waveform S fuel "LVCNR_hack" u) = Ok data ->
    exists t d dt path f grid i, holds data "t" (DTime t) /\ holds data "hlm" (DModes d) /\ asked "LVCNR_hack" u "deltaTOverM" (Some (ANum dt)) /\
      asked "LVCNR_hack" u "filepath" (Some (AStr path)) /\ so_raw S path = Ok f /\ map fst d = [(2, 2)%Z] /\ fits t d /\ uniform dt t /\ t = skipn i grid /\
      forall x, starts grid x -> exists a p, starts (ra_t_amp f) a /\ starts (ra_t_phase f) p /\ (x = a \/ x = p) /\ (a <= x)%Q /\ (p <= x)%Q.
  Proof.
    intros H. unfold load_waveform in H. cbn [String.eqb Ascii.eqb Bool.eqb] in H. apply hack_inv in H.
    destruct H as (kw & path & f & dt & orbits & grid & amp & ph & i & t & d & C & (T & D & _) & PT & DT & _ & F & (a0 & p0 & an & pn & A0 & P0 & _ & _ & AR) & AM & PH & _ & DR).
    destruct (arange_uniform _ _ _ _ AR) as [U ST]. apply resample_ok in AM, PH. destruct AM as [LA _], PH as [LP _].
    assert (FT : fits grid [((2, 2)%Z, map2 (fun a p => cscale a (so_exp S p)) amp ph)]) by (intros lm h [E|[]]; injection E as <- <-; now apply map2_len).
    pose proof (drop_fits _ _ _ _ _ DR FT) as F1. injection DR as <- <-. exists (skipn i grid). eexists. exists dt, path, f, grid, i. do 5 (split; [eassumption|]). split; [reflexivity|].
    split; [exact F1|]. split; [now apply skipn_uniform|]. split; [reflexivity|]. intros x X. apply ST in X. subst x. exists a0, p0. split; [exact A0|]. split; [exact P0|].
    unfold Qmaxb. destruct (Qle_bool a0 p0) eqn:E; [apply Qle_bool_iff in E; split; [now right|]; split; lra|].
    split; [now left|]. split; [lra|]. destruct (Qlt_le_dec a0 p0) as [L|L]; [|exact L]. exfalso. assert (a0 <= p0)%Q as L' by lra. apply Qle_bool_iff in L'. congruence.
  Qed.
End Claims.
