(** Proof that a measured waveform has the right sign of the phase. *)
From Coq Require Import Lqa.
From Verif Require Import Base BaseLemmas UtilsModel UtilsSpec UtilsLemmas ExtremaModel RationalModel MeasureModel MeasureSpec LevelLemmas
  SegmentModel SegmentSpec SegmentLemmas DataModel DataSpec DataLemmas DataLemmas2 InitModel InitSpec InitLemmas InitOptions InitSame InitKeys InitZeroecc
  ExtraSpec InitExtra FormSpec InitForm ModeSpec InitModes SignSpec.
Open Scope string_scope.
Open Scope nat_scope.

Section S.
  Context {C V : Type} (L : library C V) (p : nat).
  Notation heap := (heap C).
  Notation dval := (dval C).
  Notation abs := (lib_abs L). Notation phase := (lib_phase L).
  Notation reading := (read_waveform C (lib_abs L) (lib_phase L) (lib_polar L) (lib_rotate L) (lib_sqrt L)).
  Notation process := (process_data_dict C (lib_abs L) (lib_phase L) (lib_polar L) (lib_rotate L) (lib_sqrt L)).
  Notation total a := (amplitude_using_all_modes C (lib_abs L) (lib_sqrt L) "amplm" (real_modes C a)).

  Lemma real_inv (h : heap) v m : real_of C h v = Ok m -> v = VReal C m \/ exists q, v = VRef C q /\ nth_error h q = Some (OReal C m).
  Proof.
    destruct v; cbn; try discriminate; [intros H; apply Ok_inj in H; subst; auto|]. destruct (nth_error h p0) as [[]|] eqn:E; try discriminate.
    intros H. apply Ok_inj in H. subst. right. eauto.
  Qed.
  Lemma cplx_inv (h : heap) v m : cplx_of C h v = Ok m -> v = VCplx C m \/ exists q, v = VRef C q /\ nth_error h q = Some (OCplx C m).
  Proof.
    destruct v; cbn; try discriminate; [intros H; apply Ok_inj in H; subst; auto|]. destruct (nth_error h p0) as [[]|] eqn:E; try discriminate.
    intros H. apply Ok_inj in H. subst. right. eauto.
  Qed.
  Lemma reals_inv (h : heap) d k v m : slookup d k = Some v -> real_of C h v = Ok m -> real_modes_are h d k m.
  Proof. intros E H. apply real_inv in H. destruct H as [->|(q & -> & H)]; [left|right]; eauto. Qed.
  Lemma gives_inv h d a ph : one_representation d -> amplm_for C abs h d "" = Ok a -> phaselm_for C phase h d "" = Ok ph -> gives L h d "" a ph.
  Proof.
    intros [[(H1 & H2 & H3)|(H1 & H2 & H3)] _] A B; unfold amplm_for, phaselm_for in A, B; cbn [String.append] in A, B.
    - rewrite (no_key _ _ H2) in A. rewrite (no_key _ _ H3) in B. apply lookup_has in H1. destruct H1 as [v Ev]. rewrite Ev in A, B.
      apply bind_ok in A. destruct A as (m & Em & A). rewrite Em in B. cbn [bind] in B. apply Ok_inj in A, B. subst. right. exists m.
      split; [|split; reflexivity]. split; [|split; assumption]. apply cplx_inv in Em. destruct Em as [->|(q & -> & Em)]; [left|right]; eauto.
    - apply lookup_has in H2, H3. destruct H2 as [v Ev], H3 as [u Eu]. rewrite Ev in A. rewrite Eu in B. left.
      split; [|split; [|exact H1]]; eapply reals_inv; eauto.
  Qed.
  Lemma used_gw h precessing d a y f ph om : get_amp_phase_omega_gw C h precessing d "" = Ok (a, y, f) ->
    modes_at C h d "phaselm" = Ok ph -> modes_at C h d "omegalm" = Ok om -> of_system precessing ph y /\ of_system precessing om f.
  Proof.
    unfold get_amp_phase_omega_gw. intros H P O. cbn [String.append] in H. rewrite P, O in H. destruct precessing; cbn [negb] in H.
    - apply bind_ok in H. destruct H as (am & _ & H). destruct (negb _); [discriminate|]. cbn [bind] in H. destruct (negb _); [discriminate|]. cbv zeta in H.
      apply bind_ok in H. destruct H as (a1 & _ & H). apply bind_ok in H. destruct H as (a2 & _ & H). apply bind_ok in H. destruct H as (a3 & _ & H).
      apply bind_ok in H. destruct H as (p1 & P1 & H). apply bind_ok in H. destruct H as (p2 & P2 & H). apply bind_ok in H. destruct H as (p3 & P3 & H).
      apply bind_ok in H. destruct H as (o1 & O1 & H). apply bind_ok in H. destruct H as (o2 & O2 & H). apply bind_ok in H. destruct H as (o3 & O3 & H).
      apply Ok_inj in H. injection H as <- <- <-. apply mget_ok in P1, P2, O1, O2. apply zip_ok in P3, O3. destruct P3 as [_ ->], O3 as [_ ->].
      split; [exists p1, p2|exists o1, o2]; auto.
    - apply bind_ok in H. destruct H as (am & _ & H). apply bind_ok in H. destruct H as (a1 & _ & H). cbn [bind] in H.
      apply bind_ok in H. destruct H as (p1 & P1 & H). apply bind_ok in H. destruct H as (o1 & O1 & H). apply Ok_inj in H. injection H as <- <- <-.
      apply mget_ok in P1, O1. auto.
  Qed.
  Lemma rates_inv (h : heap) (d : sdict dval) t ph o : ~ has d "omegalm" -> ph <> [] -> get_omegalm_from_phaselm t ph = Ok o -> rates h d t ph o.
  Proof.
    intros N NE H. right. split; [exact N|]. unfold get_omegalm_from_phaselm in H. destruct ph as [|e ph]; [congruence|].
    apply bind_ok in H. destruct H as (t1 & E1 & H). apply bind_ok in H. destruct H as (t0 & E0 & H). apply get_ok in E1, E0. exists t0, t1. split; [exact E0|]. split; [exact E1|].
    intros k y E. pose proof (map_lookup _ _ _ H k) as X. rewrite E in X. destruct X as (b & X1 & X2). eauto.
  Qed.
  Lemma width_far t y ym w y0 : width_from_phase t y ym = Ok w -> nth_error y 0 = Some y0 -> (8 * np_pi <= ym - y0)%Q.
  Proof.
    unfold width_from_phase, index_before_merger. intros H E. cbv zeta in H. rewrite (proj2 (get_ok y 0 y0) E) in H. cbn [bind] in H.
    destruct (Qlt_bool (ym - 4 * np_pi * 2) y0) eqn:X; [discriminate|]. apply Qlt_bool_false in X. lra.
  Qed.
  (** The same for a sample known to be the first of the nearest ones. *)
  Definition at_sample (h : heap) (d : sdict dval) (precessing : bool) (dph w : Q) : Prop :=
    exists times a ph amp tm k i y y0 yi o f, slookup d "t" = Some (VArr C times) /\ gives L h d "" a ph /\
      total a = Ok amp /\ peak_time_via_quadratic_fit times amp = Ok (tm, k) /\ nearest_to times tm i /\
      argmin (map (fun x => Qabs (x - tm)) times) = Ok i /\
      of_system precessing ph y /\ nth_error y 0 = Some y0 /\ nth_error y i = Some yi /\ dph = (yi - y0)%Q /\
      rates h d times ph o /\ of_system precessing o f /\ nth_error f i = Some w.
  Lemma process_sign level precessing frame num h h' w r d : is_dict h p d -> precessing = false \/ frame <> "inertial" ->
    process level precessing frame num p h = (h', (w, Ok r)) -> exists dph f, at_sample h d precessing dph f /\ (8 * np_pi <= dph)%Q /\ (0 <= f)%Q.
  Proof.
    intros D F H. apply process_parts in H. destruct H as (h0 & w0 & f & w1 & d1 & H & _ & _).
    apply readw_ok in H. destruct H as (d0 & d2 & t & tz & a & az & ph & pz & om & z & D0 & R & (w2 & w3 & Ch & _) & T & A & P & O & _ & Ft & M).
    unfold is_dict in D, D0. rewrite D in D0. injection D0 as <-. rewrite chosen_plain in Ch by exact F. injection Ch as <- _ <-.
    pose proof M as M0. apply mdata_ok in M. destruct M as (i & o & fm & p0 & N & (aa & G & _) & Y1 & O1 & P1 & Y0 & P0 & W & _ & _ & Am).
    assert (MO : exists omod, modes_at C h (new_dict C t tz a az ph pz om z) "omegalm" = Ok omod) by (eapply gw_omega; eauto). destruct MO as [omod MO].
    destruct (used_gw _ _ _ _ _ _ _ _ G (modes_real _ _ _ _ _ (new_phaselm _ _ _ _ _ _ _ _ _)) MO) as [U1 U2].
    assert (NE : ph <> []) by (intros ->; destruct precessing; [destruct U1 as (u & v & X & _)|unfold of_system in U1; pose proof U1 as X]; discriminate X).
    unfold merger_data in M0. rewrite (modes_real _ _ _ _ _ (new_amplm _ _ _ _ _ _ _ _ _)) in M0. cbn [bind] in M0.
    apply bind_ok in M0. destruct M0 as (amp & Ea & M0). apply bind_ok in M0. destruct M0 as ([tm k] & Ek & M0). cbn [fst] in M0. cbv zeta in M0.
    assert (TM : f_t_merger C f = tm).
    { apply bind_ok in M0. destruct M0 as (mi & _ & M0). apply bind_ok in M0. destruct M0 as ([[x y] o'] & _ & M0).
      do 4 (apply bind_ok in M0; destruct M0 as (? & _ & M0)). destruct (Qlt_bool _ _); [discriminate|]. destruct (Qlt_bool _ _); [discriminate|].
      apply bind_ok in M0. destruct M0 as (? & _ & M0). apply Ok_inj in M0. now rewrite <- M0. }
    rewrite TM in *. exists (f_phase_merger C f - p0)%Q, fm. split; [|split; [now apply (width_far t (f_phase C f) _ (f_width C f))|exact P1]].
    exists t, a, ph, amp, tm, k, i, (f_phase C f), p0, (f_phase_merger C f), omod, o. split; [exact T|]. split; [now apply gives_inv|].
    repeat (split; [assumption || reflexivity|]). split; [|split; assumption].
    unfold modes_at in MO. rewrite sget_lookup, new_omegalm in MO. cbn [bind] in MO.
    destruct (slookup d "omegalm") as [v|] eqn:Ev.
    - subst v. left. eapply reals_inv; eauto.
    - destruct O as (o' & Eo & ->). cbn in MO. apply Ok_inj in MO. subst o'. apply rates_inv; auto. now apply slookup_none.
  Qed.
  Lemma sample_merger h d precessing dph w : at_sample h d precessing dph w -> at_merger L h d precessing dph w.
  Proof.
    intros (times & a & ph & amp & tm & k & i & y & y0 & yi & o & f & H1 & H2 & H3 & H4 & H5 & _ & H).
    exists times, a, ph, tm, i, y, y0, yi, o, f. split; [exact H1|]. split; [exact H2|]. split; [exists amp; eauto|]. split; [exact H5|]. exact H.
  Qed.

  Lemma upright_claim m a h x w' l r : a_precessing a = false \/ a_frame a <> "inertial" ->
    measure_eccentricity L m a p {| wd_heap := h; wd_extra := x |} = (w', (l, Ok r)) ->
    exists d dph w, is_dict h p d /\ at_sample h d (a_precessing a) dph w /\ (8 * np_pi <= dph)%Q /\ (0 <= w)%Q.
  Proof.
    intros F H. apply measure_ok in H. destruct H as (_ & o & s & r' & l1 & l2 & H & _). apply build_method in H. destruct H as (_ & w1 & l3 & H & _).
    apply init_ok in H. destruct H as (rf & pd & t & gw & fl & extra & ek & n & wv & op & user & rs & l4 & l5 & h' & _ & _ & H & _). cbn [wd_heap] in H.
    pose proof H as H1. apply process_parts in H1. destruct H1 as (h0 & w0 & f & w2 & d1 & H1 & _ & _). apply readw_ok in H1. destruct H1 as (d & ? & ? & ? & ? & ? & ? & ? & ? & ? & D & _).
    destruct (process_sign _ _ _ _ _ _ _ _ _ D F H) as (dph & f' & X & Y & Z). eauto 10.
  Qed.
  Lemma gives_unique h d t a ph a2 ph2 : gives L h d t a ph -> gives L h d t a2 ph2 -> a = a2 /\ ph = ph2.
  Proof. intros H H2. apply gives_ampl in H, H2. destruct H as [A B], H2 as [A2 B2]. rewrite A in A2. rewrite B in B2. apply Ok_inj in A2, B2. auto. Qed.
  Lemma opposite_lookup (ph : mdict (list Q)) k : dlookup mode_eqb (map (fun ky => (fst ky, map Qopp (snd ky))) ph) k = option_map (map Qopp) (dlookup mode_eqb ph k).
  Proof. induction ph as [|[k' y] ph IH]; [reflexivity|]. cbn. now destruct (mode_eqb k k'), (mode_eqb k' k). Qed.
  Lemma opposite_half : forall u v i x z, nth_error (map2 (fun x z => (1 # 2) * (x - z))%Q u v) i = Some x ->
    nth_error (map2 (fun x z => (1 # 2) * (x - z))%Q (map Qopp u) (map Qopp v)) i = Some z -> (z == - x)%Q.
  Proof.
    induction u as [|a u IH]; intros [|b v] [|i] x z H H2; cbn in H, H2; try discriminate; [|eapply IH; eassumption].
    injection H as <-. injection H2 as <-. ring.
  Qed.
  Lemma opposite_used precessing ph y y2 i x z : of_system precessing ph y ->
    of_system precessing (map (fun ky => (fst ky, map Qopp (snd ky))) ph) y2 -> nth_error y i = Some x -> nth_error y2 i = Some z -> (z == - x)%Q.
  Proof.
    destruct precessing; cbn [of_system].
    - intros (u & v & H1 & H2 & ->) (u2 & v2 & H3 & H4 & ->) X Z. unfold mode22 in *. rewrite opposite_lookup, H1 in H3. rewrite opposite_lookup, H2 in H4.
      injection H3 as <-. injection H4 as <-. eapply opposite_half; eassumption.
    - unfold mode22. intros H H2 X Z. rewrite opposite_lookup, H in H2. injection H2 as <-. rewrite nth_error_map, X in Z. injection Z as <-. reflexivity.
  Qed.
  Lemma sign_claim m m2 a a2 h h2 x x2 d d2 w' l r : opposite_sign L p h h2 d d2 -> a_precessing a = a_precessing a2 ->
    a_precessing a = false \/ (a_frame a <> "inertial" /\ a_frame a2 <> "inertial") ->
    measure_eccentricity L m a p {| wd_heap := h; wd_extra := x |} = (w', (l, Ok r)) ->
    exists e, snd (snd (measure_eccentricity L m2 a2 p {| wd_heap := h2; wd_extra := x2 |})) = Err e.
  Proof.
    intros (D & D2 & T & am & ph & ph2 & G & G2 & ->) P F H. destruct (measure_eccentricity L m2 a2 p _) as [w2 [l2 [r2|e]]] eqn:H2; [|cbn; eauto]. exfalso.
    apply upright_claim in H; [|tauto]. apply upright_claim in H2; [|rewrite <- P; tauto]. rewrite <- P in H2.
    destruct H as (d0 & dph & w & X & S & B & _), H2 as (d1 & dph2 & v & X2 & S2 & B2 & _). unfold is_dict in *.
    rewrite D in X. injection X as <-. rewrite D2 in X2. injection X2 as <-.
    destruct S as (times & a0 & ph0 & amp & tm & k & i & y & y0 & yi & o & f & T1 & G1 & A1 & K1 & _ & I1 & U1 & Y0 & Yi & -> & _).
    destruct S2 as (times2 & a3 & ph3 & amp2 & tm2 & k2 & j & z & z0 & zi & o2 & f2 & T2 & G3 & A2 & K2 & _ & I2 & U2 & Z0 & Zi & -> & _).
    destruct (gives_unique _ _ _ _ _ _ _ G G1) as [<- <-], (gives_unique _ _ _ _ _ _ _ G2 G3) as [<- <-].
    rewrite <- T, T1 in T2. injection T2 as <-. rewrite A1 in A2. apply Ok_inj in A2. subst amp2. rewrite K1 in K2. apply Ok_inj in K2. injection K2 as <- <-.
    rewrite I1 in I2. apply Ok_inj in I2. subst j.
    pose proof (opposite_used _ _ _ _ _ _ _ U1 U2 Y0 Z0) as E0. pose proof (opposite_used _ _ _ _ _ _ _ U1 U2 Yi Zi) as Ei.
    assert (0 < np_pi)%Q by reflexivity. rewrite E0, Ei in B2. lra.
  Qed.
  Lemma upright m a h x w' l r : a_precessing a = false \/ a_frame a <> "inertial" ->
    measure_eccentricity L m a p {| wd_heap := h; wd_extra := x |} = (w', (l, Ok r)) ->
    exists d dph w, is_dict h p d /\ at_merger L h d (a_precessing a) dph w /\ (8 * np_pi <= dph)%Q /\ (0 <= w)%Q.
  Proof. intros F H. destruct (upright_claim _ _ _ _ _ _ _ F H) as (d & dph & w & X & Y & Z). apply sample_merger in Y. eauto 10. Qed.
End S.
