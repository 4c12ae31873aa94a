(** C86 (keys), C87 and C88: generated waveforms, EMRI and EOB files. *)
From Coq Require Import Qabs Lia Lqa.
From Verif Require Import Base BaseLemmas UtilsModel UtilsSpec UtilsLemmas MeasureModel DataModel DataLemmas2 HelperModel HelperSpec HelperLemmas LoadModel LoadSpec LoadLemmas LoadKeys LoadWave LoadLAL LoadZero LoadSpins LoadNR LoadSXS LoadInv LoadClaims.
Open Scope string_scope.
Open Scope nat_scope.

Lemma slice_between {A} (l : list A) i j : between i j l (slice l i j).
Proof.
  unfold between. rewrite slice_length. split; [lia|]. intros k K. rewrite nth_error_slice. destruct (Nat.ltb_spec k (j - i)); [reflexivity|lia].
Qed.
Lemma zslice_between {A} (l : list A) i j n : length l = n -> zslice l (Z.of_nat i) j = slice l i (norm_bound n j).
Proof. intros <-. unfold zslice. f_equal. unfold norm_bound. destruct (Z.leb_spec 0 (Z.of_nat i)); lia. Qed.
Lemma prefix_post sub : forall s, substring 0 (String.length sub) s = sub -> exists post, s = (sub ++ post)%string.
Proof.
  induction sub as [|c sub IH]; intros s E; [exists s; reflexivity|]. destruct s as [|c' s]; [discriminate|]. cbn [String.length substring] in E. injection E as -> E.
  destruct (IH s E) as [post P]. exists post. cbn [append]. now rewrite <- P.
Qed.
Lemma substring_contains sub : forall m s, substring m (String.length sub) s = sub -> contains sub s.
Proof.
  induction m as [|m IH]; intros s E; [destruct (prefix_post _ _ E) as [post P]; exists "", post; exact P|].
  destruct s as [|c s]; [cbn in E; subst sub; exists "", ""; reflexivity|]. destruct (IH s E) as (pre & post & P). exists (String c pre), post. cbn [append]. now rewrite <- P.
Qed.
Lemma contains_substring sub post : forall pre, substring (String.length pre) (String.length sub) (pre ++ sub ++ post) = sub.
Proof.
  induction pre as [|c pre IH]; [|exact IH]. cbn [append String.length]. induction sub as [|c sub IH]; [destruct post; reflexivity|]. cbn [append String.length substring]. now f_equal.
Qed.
Lemma occurs_contains sub s : sub <> "" -> occurs sub s = true <-> contains sub s.
Proof.
  intros N. unfold occurs. destruct (String.index 0 sub s) as [m|] eqn:E; split; try discriminate; try reflexivity.
  - intros _. apply index_correct1 in E. exact (substring_contains _ _ _ E).
  - intros (pre & post & ->). exfalso. refine (index_correct3 0 (String.length pre) sub _ E N _ _); [lia|apply contains_substring].
Qed.

Lemma substring_app a b : substring 0 (String.length a) (a ++ b) = a.
Proof. induction a as [|c a IH]; [destruct b; reflexivity|]. cbn [append String.length substring]. now rewrite IH. Qed.
Lemma substring_split : forall m sub s, m <= String.length s -> substring m (String.length sub) s = sub -> exists post, s = (substring 0 m s ++ sub ++ post)%string.
Proof.
  induction m as [|m IH]; intros sub s L E.
  - destruct (prefix_post _ _ E) as [post P]. exists post. assert (Z : substring 0 0 s = "") by (destruct s; reflexivity). rewrite Z. exact P.
  - destruct s as [|c s]; [cbn in L; lia|]. cbn [String.length] in L. destruct (IH sub s ltac:(lia) E) as [post P]. exists post. cbn [substring append]. now rewrite <- P.
Qed.
Lemma substring_long : forall s m sub, sub <> "" -> substring m (String.length sub) s = sub -> m <= String.length s.
Proof.
  induction s as [|c s IH]; intros m sub N E; [destruct m; [lia|cbn in E; congruence]|]. destruct m as [|m]; [lia|]. cbn [String.length substring] in *. specialize (IH m sub N E). lia.
Qed.
Lemma index_first sub s m : sub <> "" -> String.index 0 sub s = Some m -> first_occurrence sub s (substring 0 m s) /\ m <= String.length s.
Proof.
  intros N E. pose proof (index_correct1 _ _ _ _ E) as F. pose proof (substring_long _ _ _ N F) as L. split; [|exact L]. split; [exact (substring_split _ _ _ L F)|].
  intros pre' post' P. destruct (Nat.lt_ge_cases (String.length pre') (String.length (substring 0 m s))) as [X|X]; [exfalso|exact X].
  assert (LS : String.length (substring 0 m s) <= m).
  { clear. revert s. induction m as [|m IH]; intros [|c s]; cbn; try lia. specialize (IH s). lia. }
  refine (index_correct2 0 m sub s E (String.length pre') _ _ _); [lia|lia|]. rewrite P. apply contains_substring.
Qed.

Section Other.
  Variable S : sources.
  (** ** keys *)
  Lemma keys_two o u kw z data : check_kwargs_and_set_defaults (Some u) (published o) = Ok kw -> has_true kw "include_zero_ecc" = Ok z ->
    (forall k, slookup data k <> None <-> k = "t" \/ k = "hlm" \/ (z = true /\ (k = "t_zeroecc" \/ k = "hlm_zeroecc"))) ->
    keys_of o u data [("include_zero_ecc", "t_zeroecc"); ("include_zero_ecc", "hlm_zeroecc")].
  Proof.
    intros C Z H k. rewrite H. pose proof (proj1 (wanted_iff _ _ _ _ _ C Z)) as WZ. split.
    - intros [E|[E|[E [K|K]]]]; auto; right; right; subst k; exists "include_zero_ecc"; (split; [cbn; tauto|tauto]).
    - intros [E|[E|(opt & I & WA)]]; auto. right. right. cbn in I. destruct I as [I|[I|[]]]; injection I as <- <-; tauto.
  Qed.
  Ltac keytac := let k := fresh "k" in intros k; unfold slookup; cbn [app dlookup];
    repeat match goal with |- context [String.eqb k ?c] => destruct (String.eqb_spec k c) as [->|?]; [split; intuition (try discriminate; try congruence)|] end;
    split; intuition (try discriminate; try congruence).
  Lemma lal_keys fuel u data : snd (load_waveform S fuel "LAL" u) = Ok data -> keys_of "LAL" u data (optional_keys "LAL").
  Proof.
    unfold load_waveform. cbn [String.eqb Ascii.eqb Bool.eqb lift snd]. unfold load_LAL_waveform. intros H. apply bind_ok in H. destruct H as ([kw [t d]] & O & H).
    destruct (once_ok _ _ _ _ O) as [C _]. apply bind_ok in H. destruct H as (z & Z & H). destruct z.
    - apply bind_ok in H. destruct H as (a & _ & H). apply bind_ok in H. destruct H as (w1 & _ & H). apply bind_ok in H. destruct H as (t0 & _ & H). apply bind_ok in H. destruct H as (w & _ & H).
      apply Ok_inj in H. subst data. eapply keys_two; [exact C|exact Z|keytac].
    - apply Ok_inj in H. subst data. eapply keys_two; [exact C|exact Z|keytac].
  Qed.
  Lemma nr_keys fuel o u data : In o numerical -> snd (load_waveform S fuel o u) = Ok data -> keys_of o u data (optional_keys o).
  Proof.
    intros I H. destruct (nr_inv S fuel o u data I H) as (t & d & _ & _ & K & _). cbn in I. destruct I as [<-|[<-|[<-|[<-|[]]]]]; exact K.
  Qed.

  (** ** EOB *)
  Lemma eob_file_ok path t d : eob_file S path = Ok (t, d) -> exists t0 h p, so_eob S path = Ok (t0, h) /\ d = [((2, 2)%Z, h)] /\ peak_of S t0 d = Ok p /\ t = map (fun x => x - p)%Q t0.
  Proof.
    unfold eob_file. intros H. apply bind_ok in H. destruct H as ([t0 h] & E & H). cbn [fst snd] in H. apply bind_ok in H. destruct H as (p & P & H). apply Ok_inj in H. injection H as <- <-. eauto 7.
  Qed.
  Lemma eob_inv fuel u data : snd (load_waveform S fuel "EOB" u) = Ok data ->
    exists kw path z zv t d zs, check_kwargs_and_set_defaults (Some u) (published "EOB") = Ok kw /\ slookup kw "filepath" = Some (Some (AStr path)) /\ has_true kw "include_zero_ecc" = Ok z /\
      slookup kw "filepath_zero_ecc" = Some zv /\ contains "EccTest" path /\ eob_file S path = Ok (t, d) /\ data = ([("t", DTime t); ("hlm", DModes d)] ++ zs)%list /\
      if z then exists zp tz dz, zv = Some (AStr zp) /\ eob_file S zp = Ok (tz, dz) /\ zs = [("t_zeroecc", DTime tz); ("hlm_zeroecc", DModes dz)] else zs = [].
  Proof.
    unfold load_waveform. cbn [String.eqb Ascii.eqb Bool.eqb lift snd]. unfold load_EOB_waveform. rewrite (defaults_published "EOB") by (cbn; tauto). cbn [bind]. intros H.
    apply bind_ok in H. destruct H as (kw & C & H). apply bind_ok in H. destruct H as (fv & FV & H). apply bind_ok in H. destruct H as (z & Z & H). apply bind_ok in H. destruct H as (zv & ZV & H).
    apply bind_ok in H. destruct H as (path & P & H). apply bind_ok in H. destruct H as ([] & ZN & H). destruct (occurs "EccTest" path) eqn:OC; [|discriminate]. apply occurs_contains in OC; [|discriminate].
    apply bind_ok in H. destruct H as ([t d] & E & H). cbn [fst snd] in H. apply sget_ok in FV, ZV. destruct fv as [[]|]; try discriminate. cbn [str] in P. apply Ok_inj in P. subst s.
    destruct z.
    - apply bind_ok in H. destruct H as (zp & ZP & H). apply bind_ok in H. destruct H as ([tz dz] & EZ & H). cbn [fst snd] in H. apply Ok_inj in H. destruct zv as [[]|]; try discriminate. apply Ok_inj in ZP. subst s.
      exists kw, path, true, (Some (AStr zp)), t, d. eexists. do 6 (split; [assumption|]). split; [symmetry; exact H|]. exists zp, tz, dz. auto.
    - apply Ok_inj in H. exists kw, path, false, zv, t, d, []. do 6 (split; [assumption|]). split; [now rewrite app_nil_r|reflexivity].
  Qed.
  Lemma eob_keys fuel u data : snd (load_waveform S fuel "EOB" u) = Ok data -> keys_of "EOB" u data (optional_keys "EOB").
  Proof.
    intros H. apply eob_inv in H. destruct H as (kw & path & z & zv & t & d & zs & C & _ & Z & _ & _ & _ & -> & ZS). destruct z.
    - destruct ZS as (zp & tz & dz & _ & _ & ->). eapply keys_two; [exact C|exact Z|keytac].
    - subst zs. eapply keys_two; [exact C|exact Z|keytac].
  Qed.
  Lemma eob_file_data path t d : eob_file S path = Ok (t, d) -> eob_data S path t d.
  Proof.
    intros H. destruct (eob_file_ok _ _ _ H) as (t0 & h & p & E & -> & P & ->). exists t0, h, p. split; [exact E|]. do 2 (split; [reflexivity|]). intros I L.
    apply (peak_of_shift S t0 _ p P); [|exact I]. intros lm h' [X|[]]. injection X as <- <-. exact L.
  Qed.
  Lemma eob_ok fuel u data : snd (load_waveform S fuel "EOB" u) = Ok data ->
    exists path t d, asked "EOB" u "filepath" (Some (AStr path)) /\ contains "EccTest" path /\ holds data "t" (DTime t) /\ holds data "hlm" (DModes d) /\ eob_data S path t d /\
      (wanted "EOB" u "include_zero_ecc" -> exists zp tz dz, asked "EOB" u "filepath_zero_ecc" (Some (AStr zp)) /\ holds data "t_zeroecc" (DTime tz) /\ holds data "hlm_zeroecc" (DModes dz) /\ eob_data S zp tz dz).
  Proof.
    intros H. apply eob_inv in H. destruct H as (kw & path & z & zv & t & d & zs & C & FV & Z & ZV & CO & E & -> & ZS). exists path, t, d. split; [eapply asked_of; eassumption|]. split; [exact CO|].
    split; [reflexivity|]. split; [reflexivity|]. split; [exact (eob_file_data _ _ _ E)|]. intros W. apply (proj1 (wanted_iff _ _ _ _ _ C Z)) in W. subst z. destruct ZS as (zp & tz & dz & -> & EZ & ->).
    exists zp, tz, dz. split; [eapply asked_of; eassumption|]. split; [reflexivity|]. split; [reflexivity|exact (eob_file_data _ _ _ EZ)].
  Qed.
  Lemma eob_refused fuel u path : known u (published "EOB") -> asked "EOB" u "filepath" (Some (AStr path)) -> ~ contains "EccTest" path ->
    snd (load_waveform S fuel "EOB" u) = Err GenericException.
  Proof.
    intros K A N. destruct (checked_total _ _ K) as [kw C]. destruct (checked _ _ _ (published_nodup "EOB") C) as [_ L].
    unfold load_waveform. cbn [String.eqb Ascii.eqb Bool.eqb lift snd]. unfold load_EOB_waveform. rewrite (defaults_published "EOB") by (cbn; tauto). cbn [bind]. rewrite C. cbn [bind].
    rewrite (proj2 (sget_ok kw "filepath" (Some (AStr path)))) by (rewrite L; exact A). cbn [bind].
    assert (G : forall k, slookup (published "EOB") k <> None -> exists v, slookup kw k = Some v).
    { intros k P. rewrite L, slookup_app. destruct (slookup u k); [eauto|]. destruct (slookup (published "EOB") k); [eauto|congruence]. }
    destruct (G "include_zero_ecc" ltac:(discriminate)) as [z Z]. destruct (G "filepath_zero_ecc" ltac:(discriminate)) as [zv ZV]. unfold has_true.
    rewrite (proj2 (sget_ok kw _ _) Z), (proj2 (sget_ok kw _ _) ZV). cbn [bind str]. destruct (on z); [destruct zv; cbn [bind]; [|reflexivity]|cbn [bind]];
      (destruct (occurs "EccTest" path) eqn:OC; [apply occurs_contains in OC; [contradiction|discriminate]|reflexivity]).
  Qed.
  Lemma eob_zero_path fuel u : wanted "EOB" u "include_zero_ecc" -> asked "EOB" u "filepath_zero_ecc" None -> exists e, snd (load_waveform S fuel "EOB" u) = Err e.
  Proof.
    intros W A. destruct (snd (load_waveform S fuel "EOB" u)) as [data|e] eqn:H; [exfalso|eauto]. apply eob_ok in H. destruct H as (path & t & d & _ & _ & _ & _ & _ & Z).
    destruct (Z W) as (zp & tz & dz & A' & _). pose proof (asked_unique _ _ _ _ _ A A'). discriminate.
  Qed.

  (** ** EMRI *)
  Definition opt_num (v : option lv) (x : option Q) : Prop := v = option_map ANum x.
  Lemma emri_file_ok path s e dt t d i j t' : emri_file S path s e dt = Ok (t, d, (i, j, t')) ->
    exists tm h ni nj, emri_times S path tm h /\ i = Z.of_nat ni /\ sample_for tm (option_map ANum s) 0 ni /\ sample_for tm (option_map ANum e) (length tm - 1) nj /\
      norm_bound (length tm) j = nj /\ t' = slice tm ni nj /\
      (length h = length tm -> match dt with
        | None => t = t' /\ d = [((2, 2)%Z, slice h ni nj)]
        | Some q => uniform q t /\ (forall x, starts t x -> starts t' x) /\ (forall x, In x t -> exists b, nth_error t' (length t' - 1) = Some b /\ (x <= b)%Q) /\
                    exists k k', d = [((2, 2)%Z, map2 (fun a p => cscale a (so_exp S p)) (map (so_spline S t' (map (cabs S) (slice h ni nj)) k) t) (map (so_spline S t' (so_phase S (slice h ni nj)) k') t))]
        end).
  Proof.
    unfold emri_file. intros H. apply bind_ok in H. destruct H as ([t0 h] & F & H). cbn [fst snd] in H. apply bind_ok in H. destruct H as (p & P & H). apply bind_ok in H. destruct H as (st & ST & H). apply bind_ok in H. destruct H as (en & EN & H).
    set (tm := shift t0 p) in *.
    assert (A : exists ni, st = Z.of_nat ni /\ sample_for tm (option_map ANum s) 0 ni).
    { destruct s as [x|]; [|apply Ok_inj in ST; exists 0; subst; split; reflexivity]. apply bind_ok in ST. destruct ST as (k & K & ST). apply Ok_inj in ST. exists k. split; [auto|]. exact (argmin_nearest _ _ _ K). }
    assert (B : exists nj, norm_bound (length tm) en = nj /\ sample_for tm (option_map ANum e) (length tm - 1) nj).
    { destruct e as [x|].
      - apply bind_ok in EN. destruct EN as (k & K & EN). apply Ok_inj in EN. subst en. exists k. split; [unfold norm_bound; destruct (Z.leb_spec 0 (Z.of_nat k)); lia|]. exact (argmin_nearest _ _ _ K).
      - apply Ok_inj in EN. subst en. eexists. split; [reflexivity|]. cbn. unfold norm_bound. change (0 <=? -1)%Z with false. cbv iota. lia. }
    destruct A as (ni & -> & SA). destruct B as (nj & NB & SB).
    assert (TT : zslice tm (Z.of_nat ni) en = slice tm ni nj) by (rewrite (zslice_between tm ni en (length tm) eq_refl); now rewrite NB).
    exists tm, h, ni, nj. split; [exists t0, p; auto|]. destruct dt as [q|].
    - apply bind_ok in H. destruct H as (a & GA & H). apply bind_ok in H. destruct H as (b & GB & H). apply bind_ok in H. destruct H as (g & G & H). apply bind_ok in H. destruct H as (amp & AM & H). apply bind_ok in H. destruct H as (ph & PH & H).
      apply Ok_inj in H. injection H as <- <- <- <- <-. split; [reflexivity|]. do 3 (split; [assumption|]). split; [exact TT|]. intros LH.
      assert (HH : zslice h (Z.of_nat ni) en = slice h ni nj) by (rewrite (zslice_between h ni en (length tm)); [now rewrite NB|exact LH]). rewrite HH in *.
      destruct (arange_uniform _ _ _ _ G) as [U SG].
      assert (PRE : exists n, filter (fun x => Qle_bool a x && Qle_bool x b) g = firstn n g).
      { unfold arange in G. destruct (Qeq_bool q 0) eqn:Q0; [discriminate|]. apply Ok_inj in G. set (n := Z.to_nat (q_ceil ((b - a) / q))) in G.
        destruct (Qlt_le_dec 0 q) as [QP|QP].
        - assert (IN : forall m c, (a <= c)%Q -> exists k, filter (fun x => Qle_bool a x && Qle_bool x b) (arange_from c q m) = firstn k (arange_from c q m)).
          { induction m as [|m IHm]; intros c CA; [exists 0; reflexivity|]. cbn [arange_from filter]. rewrite (proj2 (Qle_bool_iff a c) CA). cbn [andb]. destruct (Qle_bool c b) eqn:CB.
            - destruct (IHm (c + q)%Q ltac:(lra)) as [k K]. exists (Datatypes.S k). cbn [firstn]. now rewrite K.
            - exists 0. cbn [firstn]. assert (NO : forall m c', (c <= c')%Q -> filter (fun x => Qle_bool a x && Qle_bool x b) (arange_from c' q m) = []).
              { induction m0 as [|m0 IH0]; intros c' CC; [reflexivity|]. cbn [arange_from filter]. destruct (Qle_bool c' b) eqn:CB'; [apply Qle_bool_iff in CB'; assert (c <= b)%Q by lra; apply Qle_bool_iff in H; congruence|].
                rewrite andb_false_r. apply IH0. lra. }
              apply NO. lra. }
          subst g. apply IN. lra.
        - assert (QN : (q < 0)%Q) by (apply Qeq_bool_neq in Q0; destruct (Qlt_le_dec q 0) as [L|L]; [exact L|exfalso; apply Q0; lra]).
          subst g. destruct n as [|n]; [exists 0; reflexivity|]. cbn [arange_from filter].
          assert (NO : forall m c', (c' < a)%Q -> filter (fun x => Qle_bool a x && Qle_bool x b) (arange_from c' q m) = []).
          { induction m as [|m IHm]; intros c' CC; [reflexivity|]. cbn [arange_from filter]. destruct (Qle_bool a c') eqn:CB'; [apply Qle_bool_iff in CB'; lra|]. cbn [andb]. apply IHm. lra. }
          rewrite NO by lra. destruct (Qle_bool a a && Qle_bool a b); [exists 1; reflexivity|exists 0; reflexivity]. }
      destruct PRE as [n PRE]. rewrite PRE in *. split.
      { intros k x y X Y. rewrite nth_error_firstn in X, Y. destruct (k <? n) eqn:E1; [|discriminate]. destruct (Datatypes.S k <? n); [|discriminate]. exact (U _ _ _ X Y). }
      split.
      { intros x X. unfold starts in X. rewrite nth_error_firstn in X. destruct (0 <? n); [|discriminate]. apply SG in X. subst x. now apply start_get. }
      split.
      { intros x X. rewrite <- PRE in X. apply filter_In in X. destruct X as [_ X]. apply andb_true_iff in X. destruct X as [_ X]. apply Qle_bool_iff in X. exists b. split; [now apply last_of_nth|exact X]. }
      apply resample_ok in AM, PH. destruct AM as [_ [k ->]], PH as [_ [k' ->]]. exists k, k'. reflexivity.
    - apply Ok_inj in H. injection H as <- <- <- <- <-. split; [reflexivity|]. do 3 (split; [assumption|]). split; [exact TT|]. intros LH. split; [reflexivity|].
      do 2 f_equal. rewrite (zslice_between h ni en (length tm)); [now rewrite NB|exact LH].
  Qed.
  Lemma emri_inv fuel u data : snd (load_waveform S fuel "EMRI" u) = Ok data ->
    exists kw path s e dt t d i j t' z g zs gs, check_kwargs_and_set_defaults (Some u) (published "EMRI") = Ok kw /\ slookup kw "filepath" = Some (Some (AStr path)) /\
      slookup kw "start_time" = Some (option_map ANum s) /\ slookup kw "end_time" = Some (option_map ANum e) /\ slookup kw "deltaT" = Some (option_map ANum dt) /\
      emri_file S path s e dt = Ok (t, d, (i, j, t')) /\ has_true kw "include_zero_ecc" = Ok z /\ has_true kw "include_geodesic_ecc" = Ok g /\
      data = ([("t", DTime t); ("hlm", DModes d)] ++ zs ++ gs)%list /\
      (if z then exists zv zp tz dz w h, slookup kw "filepath_zero_ecc" = Some zv /\
          match zv with
          | None => zp = (until path match String.index 0 "e0" path with Some i => Z.of_nat i | None => (-1)%Z end ++ "e0.000.h5")%string
          | Some v => v = AStr zp end /\
          emri_file S zp None None None = Ok (tz, dz, w) /\ mget dz (2, 2)%Z = Ok h /\
          zs = [("t_zeroecc", DTime tz); ("hlm_zeroecc", DModes [((2, 2)%Z, map (cscale (/ so_sqrt S (2 * np_pi))%Q) h)])] else zs = []) /\
      (if g then exists ec r, so_emri_ecc S (until path (-3) ++ "_ecc.h5")%string = Ok ec /\ gs = [("e_geodesic", DReal r)] /\
          match dt with None => r = zslice ec i j | Some _ => resample S t t' (map Qabs (zslice ec i j)) = Ok r end else gs = []).
  Proof.
    unfold load_waveform. cbn [String.eqb Ascii.eqb Bool.eqb lift snd]. unfold load_EMRI_waveform. rewrite (defaults_published "EMRI") by (cbn; tauto). cbn [bind]. intros H.
    apply bind_ok in H. destruct H as (kw & C & H). apply bind_ok in H. destruct H as (fv & FV & H). apply bind_ok in H. destruct H as (path & P & H). apply sget_ok in FV. destruct fv as [[]|]; try discriminate. apply Ok_inj in P. subst s.
    apply bind_ok in H. destruct H as (s & SS & H). apply bind_ok in H. destruct H as (e & E & H). apply bind_ok in H. destruct H as (dt & DT & H). apply opt_get in SS, E, DT.
    apply bind_ok in H. destruct H as ([[t d] [[i j] t']] & F & H). apply bind_ok in H. destruct H as (z & Z & H). apply bind_ok in H. destruct H as (data1 & D1 & H). apply bind_ok in H. destruct H as (g & G & H).
    exists kw, path, s, e, dt, t, d, i, j, t', z, g.
    assert (ZZ : exists zs, data1 = ([("t", DTime t); ("hlm", DModes d)] ++ zs)%list /\ (if z then exists zv zp tz dz w h, slookup kw "filepath_zero_ecc" = Some zv /\
          match zv with
          | None => zp = (until path match String.index 0 "e0" path with Some i => Z.of_nat i | None => (-1)%Z end ++ "e0.000.h5")%string
          | Some v => v = AStr zp end /\
          emri_file S zp None None None = Ok (tz, dz, w) /\ mget dz (2, 2)%Z = Ok h /\
          zs = [("t_zeroecc", DTime tz); ("hlm_zeroecc", DModes [((2, 2)%Z, map (cscale (/ so_sqrt S (2 * np_pi))%Q) h)])] else zs = [])).
    { destruct z; [|apply Ok_inj in D1; exists []; rewrite app_nil_r; auto]. apply bind_ok in D1. destruct D1 as (zv & ZV & D1). apply bind_ok in D1. destruct D1 as (zp & ZP & D1). apply bind_ok in D1. destruct D1 as ([[tz dz] w] & EZ & D1).
      apply bind_ok in D1. destruct D1 as (h & HZ & D1). cbn [fst snd] in HZ, D1. apply Ok_inj in D1. apply sget_ok in ZV. eexists. split; [symmetry; exact D1|].
      exists zv, zp, tz, dz, w, h. split; [exact ZV|]. split; [destruct zv as [[]|]; cbn [str] in ZP; try discriminate; apply Ok_inj in ZP; subst; reflexivity|]. auto. }
    destruct ZZ as (zs & -> & ZZ). exists zs. destruct g.
    - apply bind_ok in H. destruct H as (ec & EC & H). destruct dt as [q|].
      + apply bind_ok in H. destruct H as (r & R & H). apply Ok_inj in H. eexists. do 8 (split; [assumption|]). split; [rewrite app_assoc; symmetry; exact H|]. split; [exact ZZ|]. exists ec, r. auto.
      + apply Ok_inj in H. eexists. do 8 (split; [assumption|]). split; [rewrite app_assoc; symmetry; exact H|]. split; [exact ZZ|]. exists ec, (zslice ec i j). auto.
    - apply Ok_inj in H. exists []. do 8 (split; [assumption|]). split; [rewrite app_nil_r; symmetry; exact H|]. split; [exact ZZ|reflexivity].
  Qed.
  Lemma emri_keys fuel u data : snd (load_waveform S fuel "EMRI" u) = Ok data -> keys_of "EMRI" u data (optional_keys "EMRI").
  Proof.
    intros H. apply emri_inv in H. destruct H as (kw & path & s & e & dt & t & d & i & j & t' & z & g & zs & gs & C & _ & _ & _ & _ & _ & Z & G & -> & ZS & GS).
    pose proof (proj1 (wanted_iff _ _ _ _ _ C Z)) as WZ. pose proof (proj1 (wanted_iff _ _ _ _ _ C G)) as WG.
    assert (K : forall k, slookup ([("t", DTime t); ("hlm", DModes d)] ++ zs ++ gs)%list k <> None <-> k = "t" \/ k = "hlm" \/ (z = true /\ (k = "t_zeroecc" \/ k = "hlm_zeroecc")) \/ (g = true /\ k = "e_geodesic")).
    { destruct z; [destruct ZS as (zv & zp & tz & dz & w & h & _ & _ & _ & _ & ->)|subst zs]; (destruct g; [destruct GS as (ec & r & _ & -> & _)|subst gs]); keytac. }
    intros k. rewrite K. split.
    - intros [E|[E|[[E [X|X]]|[E X]]]]; auto; right; right; subst k; [exists "include_zero_ecc"|exists "include_zero_ecc"|exists "include_geodesic_ecc"]; (split; [cbn; tauto|tauto]).
    - intros [E|[E|(opt & I & WA)]]; auto. right. right. cbn in I. destruct I as [I|[I|[I|[]]]]; injection I as <- <-; tauto.
  Qed.
  Lemma all_keys fuel o u data : In o origins -> snd (load_waveform S fuel o u) = Ok data -> keys_of o u data (optional_keys o).
  Proof.
    intros I H. destruct (in_dec string_dec o numerical) as [N|N]; [now apply (nr_keys fuel)|]. cbn in I, N.
    destruct I as [<-|[<-|[<-|[<-|[<-|[<-|[<-|[]]]]]]]]; try (exfalso; apply N; tauto); [exact (lal_keys _ _ _ H)|exact (eob_keys _ _ _ H)|exact (emri_keys _ _ _ H)].
  Qed.
  Lemma cut : forall m s, m <= String.length s -> exists post, s = (substring 0 m s ++ post)%string /\ String.length post = String.length s - m.
  Proof.
    induction m as [|m IH]; intros s L.
    - exists s. split; [destruct s; reflexivity|lia].
    - destruct s as [|c s]; [cbn in L; lia|]. cbn [String.length] in *. destruct (IH s ltac:(lia)) as (post & E & P). exists post. cbn [substring append]. split; [now rewrite <- E|lia].
  Qed.
  Lemma until_last s (n : nat) : 0 < n -> without_last n s (until s (- Z.of_nat n)).
  Proof.
    intros N. unfold until. set (m := norm_bound (String.length s) (- Z.of_nat n)).
    assert (M : m = String.length s - n) by (unfold m, norm_bound; destruct (Z.leb_spec 0 (- Z.of_nat n)); lia). rewrite M. destruct (Nat.lt_ge_cases (String.length s) n) as [L|L].
    - right. split; [exact L|]. replace (String.length s - n) with 0 by lia. destruct s; reflexivity.
    - left. destruct (cut (String.length s - n) s ltac:(lia)) as (post & E & P). exists post. split; [exact E|lia].
  Qed.
  Lemma emri_window fuel u data : snd (load_waveform S fuel "EMRI" u) = Ok data ->
    exists path tm h s e t d i j w, asked "EMRI" u "filepath" (Some (AStr path)) /\ emri_times S path tm h /\ asked "EMRI" u "start_time" s /\ asked "EMRI" u "end_time" e /\
      holds data "t" (DTime t) /\ holds data "hlm" (DModes d) /\ sample_for tm s 0 i /\ sample_for tm e (length tm - 1) j /\ between i j tm w /\
      (length h = length tm ->
       (asked "EMRI" u "deltaT" None -> t = w /\ (exists h', d = [((2, 2)%Z, h')] /\ between i j h h') /\
         (wanted "EMRI" u "include_geodesic_ecc" -> exists base ec r, without_last 3 path base /\ so_emri_ecc S (base ++ "_ecc.h5") = Ok ec /\ holds data "e_geodesic" (DReal r) /\ (length ec = length tm -> between i j ec r))) /\
       (forall q, asked "EMRI" u "deltaT" (Some (ANum q)) -> uniform q t /\ (forall x, starts t x -> starts w x) /\ (forall x, In x t -> exists b, nth_error w (length w - 1) = Some b /\ (x <= b)%Q))).
  Proof.
    intros H. apply emri_inv in H. destruct H as (kw & path & s & e & dt & t & d & i & j & t' & z & g & zs & gs & C & P & SS & E & DT & F & Z & G & -> & ZS & GS).
    destruct (emri_file_ok _ _ _ _ _ _ _ _ _ F) as (tm & h & ni & nj & EM & -> & S1 & S2 & NB & -> & V). pose proof (asked_of _ _ _ _ _ C DT) as AD.
    exists path, tm, h, (option_map ANum s), (option_map ANum e), t, d, ni, nj, (slice tm ni nj). split; [eapply asked_of; eassumption|]. split; [exact EM|]. do 2 (split; [eapply asked_of; eassumption|]).
    split; [reflexivity|]. split; [reflexivity|]. do 2 (split; [assumption|]). split; [apply slice_between|]. intros LH. specialize (V LH). split.
    - intros A. pose proof (asked_unique _ _ _ _ _ AD A) as X. destruct dt; [discriminate|]. destruct V as [-> ->]. split; [reflexivity|]. split; [eexists; split; [reflexivity|apply slice_between]|].
      intros W. apply (proj1 (wanted_iff _ _ _ _ _ C G)) in W. subst g. destruct GS as (ec & r & EC & -> & ->). exists (until path (-3)), ec. eexists. split; [exact (until_last path 3 ltac:(lia))|]. split; [exact EC|]. split.
      { unfold holds. destruct z; [destruct ZS as (zv & zp & tz & dz & w & h' & _ & _ & _ & _ & ->)|subst zs]; reflexivity. }
      intros LE. rewrite (zslice_between ec ni j (length tm) LE), NB. apply slice_between.
    - intros q A. pose proof (asked_unique _ _ _ _ _ AD A) as X. destruct dt as [q'|]; [|discriminate]. injection X as ->. destruct V as (V1 & V2 & V3 & _). auto.
  Qed.
  Lemma derived path zp : zp = (until path match String.index 0 "e0" path with Some i => Z.of_nat i | None => (-1)%Z end ++ "e0.000.h5")%string ->
    (exists pre, first_occurrence "e0" path pre /\ zp = pre ++ "e0.000.h5") \/ (~ contains "e0" path /\ exists base, without_last 1 path base /\ zp = base ++ "e0.000.h5").
  Proof.
    intros ->. destruct (String.index 0 "e0" path) as [m|] eqn:E.
    - left. destruct (index_first "e0" path m ltac:(discriminate) E) as [F L]. exists (substring 0 m path). split; [exact F|]. unfold until. do 2 f_equal.
      unfold norm_bound. destruct (Z.leb_spec 0 (Z.of_nat m)); lia.
    - right. split; [|exists (until path (-1)); split; [exact (until_last path 1 ltac:(lia))|reflexivity]]. intros N. apply occurs_contains in N; [|discriminate]. unfold occurs in N. rewrite E in N. discriminate.
  Qed.
  Lemma emri_zero fuel u data : snd (load_waveform S fuel "EMRI" u) = Ok data -> wanted "EMRI" u "include_zero_ecc" ->
    exists path zv zp tm h tz dz hz, asked "EMRI" u "filepath" (Some (AStr path)) /\ asked "EMRI" u "filepath_zero_ecc" zv /\
      match zv with
      | Some v => v = AStr zp
      | None => (exists pre, first_occurrence "e0" path pre /\ zp = pre ++ "e0.000.h5") \/ (~ contains "e0" path /\ exists base, without_last 1 path base /\ zp = base ++ "e0.000.h5")
      end /\ emri_times S zp tm h /\
      holds data "t_zeroecc" (DTime tz) /\ holds data "hlm_zeroecc" (DModes [((2, 2)%Z, dz)]) /\ between 0 (length tm - 1) tm tz /\
      (length h = length tm -> between 0 (length tm - 1) h hz /\ rescaled (/ so_sqrt S (2 * np_pi))%Q hz dz).
  Proof.
    intros H W. apply emri_inv in H. destruct H as (kw & path & s & e & dt & t & d & i & j & t' & z & g & zs & gs & C & P & SS & E & DT & F & Z & G & -> & ZS & GS).
    apply (proj1 (wanted_iff _ _ _ _ _ C Z)) in W. subst z. destruct ZS as (zv & zp & tz & dz & [[zi zj] zt] & h & ZV & ZP & EZ & HZ & ->).
    destruct (emri_file_ok _ _ _ _ _ _ _ _ _ EZ) as (tm & hm & ni & nj & EM & -> & S1 & S2 & NB & -> & V). cbn [option_map sample_for] in S1, S2. subst ni. rewrite S2 in *. clear S2 NB nj.
    exists path, zv, zp, tm, hm, tz. eexists. exists (slice hm 0 (length tm - 1)). split; [eapply asked_of; eassumption|]. split; [eapply asked_of; eassumption|]. split; [destruct zv; [exact ZP|exact (derived _ _ ZP)]|]. split; [exact EM|].
    split; [reflexivity|]. split; [reflexivity|]. split.
    - assert (TZ : tz = slice tm 0 (length tm - 1)).
      { clear - EZ. unfold emri_file in EZ. apply bind_ok in EZ. destruct EZ as ([a b] & _ & EZ). apply bind_ok in EZ. destruct EZ as (p & _ & EZ). cbn [bind fst snd] in EZ. apply Ok_inj in EZ. injection EZ; intros; congruence. }
      rewrite TZ. apply slice_between.
    - intros LH. destruct (V LH) as [_ ->]. unfold mget, dget in HZ. cbn in HZ. apply Ok_inj in HZ. subst h. split; [apply slice_between|].
      split; [now rewrite map_length|]. intros k a b A B. rewrite nth_error_map, A in B. cbn [option_map] in B. apply Some_inj in B. subst b. split; cbn [cscale fst snd]; reflexivity.
  Qed.
End Other.

(** C84, the warning *)
Section Warned.
  Variable S : sources.
  Lemma ratio_warned fuel o u data dir m : In o ["SXSCatalog"; "SXSCatalog_old"] -> snd (load_waveform S fuel o u) = Ok data -> wanted o u "include_params_dict" \/ wanted o u "include_zero_ecc" ->
    asked o u "data_dir" (Some (AStr dir)) -> metadata_of S dir m -> (md_m1 m / md_m2 m < 1)%Q -> In "m1 < m2" (fst (load_waveform S fuel o u)).
  Proof.
    intros I H W A M LT. assert (E : exists latest : bool, o = sxs_name latest /\ load_waveform S fuel o u = load_sxs S latest fuel u).
    { cbn in I. destruct I as [<-|[<-|[]]]; [exists true|exists false]; split; reflexivity. }
    destruct E as (latest & -> & E). rewrite E in *. unfold load_sxs in *.
    assert (DF : get_load_waveform_defaults (if latest then "SXSCatalog" else "SXSCatalog_old") = Ok (published (sxs_name latest))) by (unfold sxs_name; apply defaults_published; destruct latest; cbn; tauto).
    rewrite DF, !lbind_lift_ok in *. apply lbind_inv in H. destruct H as (kw & C & H). cbn [lift snd] in C. rewrite C, lbind_lift_ok.
    apply lbind_inv in H. destruct H as (hz & HZ & H). eapply lbind_log; [exact HZ|]. apply lbind_inv in H. destruct H as ([g d1] & TD & H). eapply lbind_log; [exact TD|]. cbn [fst snd] in *.
    unfold make_return_dict in *. apply lbind_inv in H. destruct H as (orbits & OB & H). eapply lbind_log; [exact OB|]. apply lbind_inv in H. destruct H as (dir' & DIR & H). eapply lbind_log; [exact DIR|].
    cbn [lift snd] in DIR. apply str_get in DIR. pose proof (asked_unique _ _ _ _ _ (asked_of _ _ _ _ _ C DIR) A) as X. injection X as ->.
    apply lbind_inv in H. destruct H as ([t1 d] & JU & H). eapply lbind_log; [exact JU|]. apply lbind_inv in H. destruct H as (p & P & H). eapply lbind_log; [exact P|].
    apply lbind_inv in H. destruct H as (meta & ME & H). eapply lbind_log; [exact ME|]. apply lbind_inv in H. destruct H as (params & PA & H). apply lbind_log_l. clear H.
    cbn [lift snd] in ME. unfold metadata_needed in ME. apply bind_ok in ME. destruct ME as (z & Z & ME). apply bind_ok in ME. destruct ME as (wp & WP & ME). apply Ok_inj in ME.
    assert (MT : meta = true).
    { destruct W as [W|W]; [apply (proj1 (wanted_iff _ _ _ _ _ C WP)) in W|apply (proj1 (wanted_iff _ _ _ _ _ C Z)) in W]; subst; [destruct z; reflexivity|reflexivity]. }
    rewrite MT in *. apply lbind_inv in PA. destruct PA as (m' & M' & PA). eapply lbind_log; [exact M'|]. cbn [lift snd] in M'. unfold metadata_of in M. rewrite M in M'. apply Ok_inj in M'. subst m'.
    unfold params_of_metadata in *. destruct (Qeq_bool (md_m2 m) 0); [discriminate|]. apply lbind_log_l. apply lbind_inv in PA. destruct PA as (q & Q & _).
    assert (L0 : Qlt_bool 0 (1 - md_m1 m / md_m2 m) = true) by (apply Qlt_bool_iff; lra). rewrite L0 in *. destruct (Qlt_bool (1 - md_m1 m / md_m2 m) (5 # 10000)); [left; reflexivity|discriminate].
  Qed.
End Warned.

(** C88, without the circular file; C90, the step *)
Section More.
  Variable S : sources.
  Lemma eob_eval u fv z zv : known u (published "EOB") -> asked "EOB" u "filepath" fv -> asked "EOB" u "include_zero_ecc" z -> asked "EOB" u "filepath_zero_ecc" zv ->
    load_EOB_waveform S u =
    (do path <- match fv with None => Err GenericException | Some _ => str fv end;
     do _ <- (if on z then match zv with None => Err GenericException | Some _ => Ok tt end else Ok tt);
     if occurs "EccTest" path then
       do x <- eob_file S path;
       if on z then do zp <- str zv; do y <- eob_file S zp;
         Ok [("t", DTime (fst x)); ("hlm", DModes (snd x)); ("t_zeroecc", DTime (fst y)); ("hlm_zeroecc", DModes (snd y))]
       else Ok [("t", DTime (fst x)); ("hlm", DModes (snd x))]
     else Err GenericException).
  Proof.
    intros K A B C. destruct (checked_total _ _ K) as [kw E]. destruct (checked _ _ _ (published_nodup "EOB") E) as [_ L].
    unfold load_EOB_waveform. rewrite (defaults_published "EOB") by (cbn; tauto). cbn [bind]. rewrite E. cbn [bind].
    rewrite (proj2 (sget_ok kw "filepath" fv)) by (rewrite L; exact A). unfold has_true. rewrite (proj2 (sget_ok kw "include_zero_ecc" z)) by (rewrite L; exact B).
    rewrite (proj2 (sget_ok kw "filepath_zero_ecc" zv)) by (rewrite L; exact C). cbn [bind]. reflexivity.
  Qed.
  Lemma eob_zero_ignored fuel u v : unwanted "EOB" u "include_zero_ecc" -> load_waveform S fuel "EOB" (sset u "filepath_zero_ecc" v) = load_waveform S fuel "EOB" u.
  Proof.
    intros (z & Z & OFF). unfold load_waveform. cbn [String.eqb Ascii.eqb Bool.eqb]. f_equal.
    assert (G : forall (w : lkwargs) k, slookup (published "EOB") k <> None -> exists x, asked "EOB" w k x).
    { intros w k P. unfold asked. rewrite slookup_app. destruct (slookup w k); [eauto|]. destruct (slookup (published "EOB") k); [eauto|congruence]. }
    assert (SS : forall k, k <> "filepath_zero_ecc" -> slookup (sset u "filepath_zero_ecc" v ++ published "EOB")%list k = slookup (u ++ published "EOB")%list k).
    { intros k N. rewrite !slookup_app, slookup_sset. destruct (String.eqb_spec k "filepath_zero_ecc"); [contradiction|reflexivity]. }
    assert (KK : known (sset u "filepath_zero_ecc" v) (published "EOB") <-> known u (published "EOB")).
    { unfold known. split.
      - intros H k X. apply (H k). rewrite slookup_sset. destruct (String.eqb k "filepath_zero_ecc"); [discriminate|exact X].
      - intros H k X. rewrite slookup_sset in X. destruct (String.eqb_spec k "filepath_zero_ecc") as [E|N]; [rewrite E; discriminate|]. exact (H k X). }
    destruct (G u "filepath" ltac:(discriminate)) as [fv F]. destruct (G u "filepath_zero_ecc" ltac:(discriminate)) as [zv ZV]. destruct (G (sset u "filepath_zero_ecc" v) "filepath_zero_ecc" ltac:(discriminate)) as [zv' ZV'].
    destruct (forallb (fun kw => smem (published "EOB") kw) (dkeys u)) eqn:D.
    - apply known_keys in D. rewrite (eob_eval u fv z zv D F Z ZV). rewrite (eob_eval (sset u "filepath_zero_ecc" v) fv z zv' (proj2 KK D)); [|unfold asked; rewrite SS by discriminate; exact F|unfold asked; rewrite SS by discriminate; exact Z|exact ZV'].
      change counts with on in OFF. rewrite OFF. reflexivity.
    - assert (N : ~ known u (published "EOB")) by (intros X; apply known_keys in X; congruence). unfold load_EOB_waveform. rewrite (defaults_published "EOB") by (cbn; tauto). cbn [bind].
      rewrite (checked_unknown _ _ N), (checked_unknown (sset u "filepath_zero_ecc" v) (published "EOB")) by (intros X; apply N, KK, X). reflexivity.
  Qed.
  Lemma zero_step fuel o u data : In o numerical -> snd (load_waveform S fuel o u) = Ok data -> wanted o u "include_zero_ecc" ->
    exists tz, holds data "t_zeroecc" (DTime tz) /\ uniform (1 # 10) tz.
  Proof. intros I H W. destruct (covers S fuel o u data I H W) as (q & c1 & c2 & ap & ma & om & t & t0 & tz & dz & tg & dg & _ & _ & _ & T & _ & _ & _ & _ & U). eauto. Qed.
End More.
