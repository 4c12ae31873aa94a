(** More proofs about the waveform dictionary: truncation, changes made to the caller's data, repeated calls. *)
From Verif Require Import Base BaseLemmas UtilsModel UtilsSpec SegmentModel SegmentSpec SegmentLemmas DataModel DataSpec DataLemmas.
Open Scope string_scope.
Open Scope nat_scope.

Lemma mode_eqb_eq a b : mode_eqb a b = true <-> a = b.
Proof.
  unfold mode_eqb. rewrite andb_true_iff, !Z.eqb_eq. destruct a, b; cbn. split; [intros [-> ->]; reflexivity|intros E; injection E; auto].
Qed.
Lemma cut_lookup idx ms m : dlookup mode_eqb (cut_modes idx ms) m = option_map (firstn idx) (dlookup mode_eqb ms m).
Proof.
  unfold cut_modes. induction ms as [|[k a] ms IH]; [reflexivity|]. cbn [map dlookup fst snd].
  destruct (mode_eqb m k); [reflexivity|exact IH].
Qed.
Lemma mget_ok {A} (d : mdict A) m a : mget d m = Ok a <-> dlookup mode_eqb d m = Some a.
Proof. unfold mget, dget. destruct (dlookup mode_eqb d m); split; intros H; congruence. Qed.
Lemma zip_ok f a b r : zip_with f a b = Ok r -> length a = length b /\ r = map2 f a b.
Proof. unfold zip_with. destruct (length a =? length b) eqn:E; [|discriminate]. apply Nat.eqb_eq in E. intros H. apply Ok_inj in H. auto. Qed.
Lemma firstn_map2 {A B D} (f : A -> B -> D) a : forall b n, map2 f (firstn n a) (firstn n b) = firstn n (map2 f a b).
Proof.
  induction a as [|x a IH]; intros [|y b] [|n]; cbn; try reflexivity. now rewrite IH.
Qed.

Section S.
  Variable C : Type.
  Variable cabs cphase : C -> list Q.
  Variable cpolar : list Q -> list Q -> res C.
  Variable rotate : list Q -> list C -> res (list C).
  Variable qsqrt : Q -> Q.
  Notation heap := (heap C). Notation dval := (dval C).
  Notation process := (process_data_dict C cabs cphase cpolar rotate qsqrt).
  Notation readw := (read_waveform C cabs cphase cpolar rotate qsqrt).
  Notation mdata := (merger_data C cabs qsqrt).
  Notation rest := (rest C cabs cphase qsqrt).
  Notation chosen := (chosen C cabs cphase cpolar rotate).

  (** ** the merger *)
  Lemma real_array h d key ms m a : modes_at C h d key = Ok ms -> mget ms m = Ok a -> array_of h d key m a.
  Proof.
    unfold modes_at, sget, dget. fold (slookup d key). intros H G. apply mget_ok in G. inv_bind H.
    destruct (slookup d key) as [x|] eqn:E1; [|discriminate]. apply Ok_inj in E. subst x. exists v. split; [exact E1|].
    destruct v; cbn in H; try discriminate.
    - apply Ok_inj in H. subst. left. eauto.
    - destruct (nth_error h p) as [[]|] eqn:E2; try discriminate. apply Ok_inj in H. subst. right. eauto.
  Qed.
  Lemma gw_ok h precessing d a p o : get_amp_phase_omega_gw C h precessing d "" = Ok (a, p, o) ->
    wave_phase h d precessing p.
  Proof.
    unfold get_amp_phase_omega_gw. destruct precessing; cbn [negb]; intros H.
    - inv_bind H. destruct (negb _); [discriminate|]. inv_bind H. destruct (negb _); [discriminate|]. cbv zeta in H.
      do 9 inv_bind H. inv_bind H. apply Ok_inj in H. injection H as <- <- <-.
      cbn [wave_phase]. apply zip_ok in E6. destruct E6 as [L ->].
      exists v4, v5. split; [eapply real_array; eauto|]. split; [eapply real_array; eauto|]. split; [exact L|].
      split; [rewrite map2_length; lia|]. intros k x y Hx Hy. rewrite nth_error_map2, Hx, Hy. reflexivity.
    - do 5 inv_bind H. inv_bind H. apply Ok_inj in H. injection H as <- <- <-. cbn [wave_phase]. eapply real_array; eauto.
  Qed.
  Lemma mdata_ok precessing t nd h f : mdata precessing t nd h = Ok f ->
    exists i o om p0, nearest_to t (f_t_merger C f) i /\
      (exists a, get_amp_phase_omega_gw C h precessing nd "" = Ok (a, f_phase C f, o) /\ nth_error a i = Some (f_amp_merger C f)) /\
      nth_error (f_phase C f) i = Some (f_phase_merger C f) /\ nth_error o i = Some om /\ (0 <= om)%Q /\
      nth_error (f_phase C f) 0 = Some p0 /\ (p0 <= f_phase_merger C f)%Q /\
      width_from_phase t (f_phase C f) (f_phase_merger C f) = Ok (f_width C f) /\ f_t C f = t /\ f_dict C f = nd /\
      argmin (map (fun x => Qabs (x - f_t_merger C f)) t) = Ok i.
  Proof.
    unfold merger_data. intros H. inv_bind H. inv_bind H. inv_bind H. cbv zeta in H. inv_bind H. inv_bind H.
    destruct v3 as [[a ph] o]. inv_bind H. inv_bind H. inv_bind H. inv_bind H.
    destruct (Qlt_bool v4 v6) eqn:Q1; [discriminate|]. destruct (Qlt_bool v5 0) eqn:Q2; [discriminate|]. inv_bind H. apply Ok_inj in H.
    subst f. cbn [f_t_merger f_phase f_phase_merger f_amp_merger f_width f_t f_dict].
    apply Qlt_bool_false in Q1. apply Qlt_bool_false in Q2.
    exists v2, o, v5, v6. apply get_ok in E4, E5, E6, E7.
    split; [apply nearest_ok; exact E2|]. split; [eauto|]. auto 15.
  Qed.

  (** ** truncation *)
  Lemma index_ok ph pm n i : index_before_merger ph pm n = Ok i -> nearest_to ph (pm - wave_orbit * n) i /\
    exists p0, nth_error ph 0 = Some p0 /\ (p0 <= pm - wave_orbit * n)%Q.
  Proof.
    unfold index_before_merger, wave_orbit. cbv zeta. intros H. inv_bind H.
    destruct (Qlt_bool (pm - 4 * np_pi * n) v) eqn:Q1; [discriminate|]. apply Qlt_bool_false in Q1. split; [now apply nearest_ok|].
    apply get_ok in E. eauto.
  Qed.
  Lemma index_err ph pm n e : index_before_merger ph pm n = Err e -> forall p0, nth_error ph 0 = Some p0 ->
    (pm - wave_orbit * n < p0)%Q /\ e = GenericException.
  Proof.
    unfold index_before_merger, wave_orbit. cbv zeta. intros H p0 H0. apply get_ok in H0. rewrite H0 in H. cbn [bind] in H.
    destruct (Qlt_bool (pm - 4 * np_pi * n) p0) eqn:Q1.
    - apply Qlt_bool_iff in Q1. split; [exact Q1|congruence].
    - destruct ph; [discriminate|]. cbn in H. discriminate.
  Qed.
  Lemma index_few ph pm n p0 : nth_error ph 0 = Some p0 -> (pm - wave_orbit * n < p0)%Q ->
    index_before_merger ph pm n = Err GenericException.
  Proof.
    unfold index_before_merger, wave_orbit. cbv zeta. intros H0 H. apply get_ok in H0. rewrite H0. cbn [bind].
    apply Qlt_bool_iff in H. now rewrite H.
  Qed.

  Definition cut_keys : list string := ["amplm"; "phaselm"; "omegalm"].
  Lemma truncate_ok n f h h' w d t tz a az ph pz om z : f_dict C f = new_dict C t tz a az ph pz om z -> f_t C f = t ->
    truncate C (Some n) f h = (h', (w, Ok d)) ->
    w = [] /\ (0 <= n)%Q /\ exists idx, index_before_merger (f_phase C f) (f_phase_merger C f) n = Ok idx /\
      slookup d "t" = Some (VArr C (firstn idx t)) /\
      slookup d "amplm" = Some (VReal C (cut_modes idx a)) /\ slookup d "phaselm" = Some (VReal C (cut_modes idx ph)) /\
      ((exists o, om = VReal C o /\ h' = h /\ slookup d "omegalm" = Some (VReal C (cut_modes idx o))) \/
       (exists q o, om = VRef C q /\ nth_error h q = Some (OReal C o) /\
                    h' = set_nth h q (OReal C (cut_modes idx o)) /\ slookup d "omegalm" = Some (VRef C q))) /\
      (forall k, ~ In k ("t" :: cut_keys) -> slookup d k = slookup (f_dict C f) k).
  Proof.
    intros Hf Ht H. unfold truncate in H. destruct (Qlt_bool n 0) eqn:Q1; [discriminate|]. apply Qlt_bool_false in Q1.
    apply mbind_ok in H. destruct H as [h1 [w1 [w2 [idx [E [H ->]]]]]]. apply lift_ok in E. destruct E as [-> [-> E]].
    rewrite Hf in H. erewrite (step_ok _ (cut_entry C idx _ "amplm")) in H; [|apply cut_real, new_amplm].
    erewrite (step_ok _ (cut_entry C idx _ "phaselm")) in H; [|apply cut_real; rewrite slookup_sset; apply new_phaselm].
    apply mbind_ok in H. destruct H as [h2 [w3 [w4 [d3 [E3 [H ->]]]]]]. apply ret_ok in H. destruct H as [-> [-> ->]].
    set (d2 := sset (sset (new_dict C t tz a az ph pz om z) "amplm" (VReal C (cut_modes idx a))) "phaselm" (VReal C (cut_modes idx ph))) in *.
    assert (L : slookup d2 "omegalm" = Some om).
    { unfold d2. rewrite !slookup_sset. apply new_omegalm. }
    assert (O : w3 = [] /\ ((exists o, om = VReal C o /\ h2 = h /\ d3 = sset d2 "omegalm" (VReal C (cut_modes idx o))) \/
       (exists q o, om = VRef C q /\ nth_error h q = Some (OReal C o) /\ h2 = set_nth h q (OReal C (cut_modes idx o)) /\ d3 = d2))).
    { unfold cut_entry, sget, dget in E3. fold (slookup d2 "omegalm") in E3. rewrite L in E3.
      destruct om; try discriminate.
      - injection E3 as <- <- <-. split; [reflexivity|]. left. eauto.
      - destruct (nth_error h p) as [[]|] eqn:Eq; try discriminate. injection E3 as <- <- <-. split; [reflexivity|]. right.
        exists p, d. auto. }
    destruct O as [-> O]. split; [reflexivity|]. split; [exact Q1|]. exists idx. split; [exact E|].
    assert (A3 : slookup d3 "amplm" = Some (VReal C (cut_modes idx a))).
    { destruct O as [[o [-> [-> ->]]]|[q [o [-> [_ [-> ->]]]]]]; unfold d2; rewrite !slookup_sset; reflexivity. }
    assert (P3 : slookup d3 "phaselm" = Some (VReal C (cut_modes idx ph))).
    { destruct O as [[o [-> [-> ->]]]|[q [o [-> [_ [-> ->]]]]]]; unfold d2; rewrite !slookup_sset; reflexivity. }
    rewrite !slookup_sset. cbn [String.eqb Ascii.eqb Bool.eqb]. rewrite Ht.
    split; [reflexivity|]. split; [exact A3|]. split; [exact P3|]. split.
    - destruct O as [[o [-> [-> ->]]]|[q [o [-> [Hq [-> ->]]]]]].
      + left. exists o. rewrite slookup_sset. auto.
      + right. exists q, o. auto.
    - intros k Hk. rewrite Hf, slookup_sset. destruct (String.eqb k "t") eqn:Et.
      { apply String.eqb_eq in Et. subst k. elim Hk. now left. }
      assert (K : forall x, In x cut_keys -> String.eqb k x = false).
      { intros x Hx. apply String.eqb_neq. intros ->. apply Hk. now right. }
      assert (slookup d2 k = slookup (new_dict C t tz a az ph pz om z) k).
      { unfold d2. rewrite !slookup_sset, !K by (cbn; auto). reflexivity. }
      destruct O as [[o [-> [-> ->]]]|[q [o [-> [_ [-> ->]]]]]]; [|assumption].
      rewrite slookup_sset, K by (cbn; auto). assumption.
  Qed.
  Lemma process_none level precessing frame p h h0 w f : readw level precessing frame p h = (h0, (w, Ok f)) ->
    process level precessing frame None p h =
    (h0, (w, Ok {| p_dict := f_dict C f; p_t_merger := f_t_merger C f; p_amp_merger := f_amp_merger C f; p_width := f_width C f |})).
  Proof.
    intros H. rewrite process_reads. unfold mbind at 1. rewrite H. cbn. now rewrite app_nil_r.
  Qed.
  Lemma process_none_inv level precessing frame p h h0 w r : process level precessing frame None p h = (h0, (w, Ok r)) ->
    exists f, readw level precessing frame p h = (h0, (w, Ok f)) /\
     r = {| p_dict := f_dict C f; p_t_merger := f_t_merger C f; p_amp_merger := f_amp_merger C f; p_width := f_width C f |}.
  Proof.
    rewrite process_reads. intros H. apply mbind_ok in H. destruct H as [h1 [w1 [w2 [f [E [H ->]]]]]].
    injection H as <- <- <-. exists f. rewrite app_nil_r. auto.
  Qed.
  Lemma array_real h d key ms m x : slookup d key = Some (VReal C ms) -> (array_of h d key m x <-> dlookup mode_eqb ms m = Some x).
  Proof.
    intros E. unfold array_of. rewrite E. split.
    - intros [v [Hv [[ms' [-> H]]|[q [ms' [-> _]]]]]]; congruence.
    - intros H. eauto 6.
  Qed.
  Lemma array_ref h d key q ms m x : slookup d key = Some (VRef C q) -> nth_error h q = Some (OReal C ms) ->
    (array_of h d key m x <-> dlookup mode_eqb ms m = Some x).
  Proof.
    intros E Hq. unfold array_of. rewrite E. split.
    - intros [v [Hv [[ms' [-> _]]|[q' [ms' [-> [H1 H2]]]]]]]; congruence.
    - intros H. eauto 8.
  Qed.
  Lemma cut_array idx ms m y : dlookup mode_eqb (cut_modes idx ms) m = Some y <->
    exists x, dlookup mode_eqb ms m = Some x /\ y = firstn idx x.
  Proof.
    rewrite cut_lookup. destruct (dlookup mode_eqb ms m); cbn; split; [intros H; apply Some_inj in H; eauto|intros [x [H ->]]; congruence|discriminate|intros [x [H _]]; discriminate].
  Qed.
  Lemma truncated level precessing frame n p h h' w r : process level precessing frame (Some n) p h = (h', (w, Ok r)) ->
    exists h0 r0 t ph i pm idx,
      process level precessing frame None p h = (h0, (w, Ok r0)) /\
      p_t_merger C r = p_t_merger C r0 /\ p_amp_merger C r = p_amp_merger C r0 /\ p_width C r = p_width C r0 /\
      (0 <= n)%Q /\ times_of (p_dict C r0) t /\ nearest_to t (p_t_merger C r0) i /\
      wave_phase h0 (p_dict C r0) precessing ph /\ nth_error ph i = Some pm /\ nearest_to ph (pm - wave_orbit * n) idx /\
      times_of (p_dict C r) (firstn idx t) /\
      (forall key m y, In key cut_keys ->
         (array_of h' (p_dict C r) key m y <-> exists x, array_of h0 (p_dict C r0) key m x /\ y = firstn idx x)) /\
      (forall key, ~ In key ("t" :: cut_keys) -> slookup (p_dict C r) key = slookup (p_dict C r0) key).
  Proof.
    rewrite process_reads. intros H. apply mbind_ok in H. destruct H as [h0 [w1 [w2 [f [E [H ->]]]]]].
    apply mbind_ok in H. destruct H as [h2 [w3 [w4 [d [E2 [H ->]]]]]]. apply ret_ok in H. destruct H as [-> [-> ->]].
    cbn [p_dict p_t_merger p_amp_merger p_width].
    pose proof (process_none _ _ _ _ _ _ _ _ E) as PN. apply readw_ok in E.
    destruct E as [d0 [d' [t [tz [a [az [ph [pz [om [z [_ [_ [_ [_ [_ [_ [_ [Ef [Et Em]]]]]]]]]]]]]]]]]]].
    eapply truncate_ok in E2; [|exact Ef|exact Et]. destruct E2 as [-> [Hn [idx [Hi [T [TA [TP [TO TR]]]]]]]].
    apply mdata_ok in Em. destruct Em as [i [o [omm [p0 [M1 [[aa [M2 _]] [M3 [M4 [M5 [M6 [M7 _]]]]]]]]]]].
    apply index_ok in Hi. destruct Hi as [Hi _]. rewrite ?app_nil_r in *.
    eexists h0, _, t, (f_phase C f), i, (f_phase_merger C f), idx. split; [exact PN|].
    cbn [p_dict p_t_merger p_amp_merger p_width]. do 3 (split; [reflexivity|]). split; [exact Hn|].
    split; [unfold times_of; rewrite Ef; apply new_t|]. split; [exact M1|].
    split; [rewrite Ef; eapply gw_ok; exact M2|]. split; [exact M3|]. split; [exact Hi|]. split; [exact T|].
    split; [|exact TR].
    intros key m y Hk. rewrite Ef. destruct Hk as [<-|[<-|[<-|[]]]].
    - rewrite (array_real h2 d _ _ m y TA), cut_array. now setoid_rewrite (array_real h0 _ _ _ m _ (new_amplm C t tz a az ph pz om z)).
    - rewrite (array_real h2 d _ _ m y TP), cut_array. now setoid_rewrite (array_real h0 _ _ _ m _ (new_phaselm C t tz a az ph pz om z)).
    - pose proof (new_omegalm C t tz a az ph pz om z) as NO. destruct TO as [[o' [-> [-> TO]]]|[q [o' [-> [Hq [-> TO]]]]]].
      + rewrite (array_real h0 d _ _ m y TO), cut_array. now setoid_rewrite (array_real h0 _ _ _ m _ NO).
      + assert (Hq' : nth_error (set_nth h0 q (OReal C (cut_modes idx o'))) q = Some (OReal C (cut_modes idx o'))).
        { rewrite nth_set, Nat.eqb_refl. assert (q < length h0) by (apply nth_error_Some; congruence).
          now rewrite (proj2 (Nat.ltb_lt _ _)). }
        rewrite (array_ref _ d _ _ _ m y TO Hq'), cut_array. now setoid_rewrite (array_ref h0 _ _ _ _ m _ NO Hq).
  Qed.

  (** all arrays of the eccentric waveform have n samples *)
  Lemma aligned level precessing frame n p h h' w r h0 w0 r0 N :
    process level precessing frame (Some n) p h = (h', (w, Ok r)) ->
    process level precessing frame None p h = (h0, (w0, Ok r0)) -> same_length h0 (p_dict C r0) N ->
    exists idx, idx < N /\ same_length h' (p_dict C r) idx.
  Proof.
    intros H H0 [S1 S2]. apply truncated in H.
    destruct H as (h1 & r1 & t & ph & i & pm & idx & E & _ & _ & _ & _ & T & _ & W & _ & I & T2 & A & _).
    assert (h1 = h0 /\ r1 = r0) as [-> ->] by (split; congruence). clear E.
    assert (L : length ph = N).
    { unfold wave_phase in W. destruct precessing.
      - destruct W as [u [v [W1 [_ [_ [W2 _]]]]]]. rewrite W2. eapply S2; [|exact W1]. right. now left.
      - eapply S2; [|exact W]. right. now left. }
    destruct I as [y [I _]]. assert (Hi : idx < N) by (rewrite <- L; apply nth_error_Some; congruence).
    exists idx. split; [exact Hi|]. split.
    - intros t' Ht'. unfold times_of in *. assert (t' = firstn idx t) by congruence. subst t'.
      rewrite firstn_length, (S1 t T). lia.
    - intros key m x Hk Hx. apply A in Hx; [|exact Hk]. destruct Hx as [x0 [Hx0 ->]]. rewrite firstn_length, (S2 _ _ _ Hk Hx0). lia.
  Qed.
  Lemma negative level precessing frame n p h h0 w0 r0 : process level precessing frame None p h = (h0, (w0, Ok r0)) ->
    (n < 0)%Q -> process level precessing frame (Some n) p h = (h0, (w0, Err ValueError)).
  Proof.
    intros H Hn. apply process_none_inv in H. destruct H as [f [H _]]. rewrite process_reads. unfold mbind at 1. rewrite H. cbn [fst snd].
    apply Qlt_bool_iff in Hn. unfold mbind, truncate. rewrite Hn. cbn. now rewrite app_nil_r.
  Qed.
  Lemma gw_omega h precessing d r : get_amp_phase_omega_gw C h precessing d "" = Ok r -> exists om, modes_at C h d "omegalm" = Ok om.
  Proof.
    unfold get_amp_phase_omega_gw. destruct precessing; cbn [negb]; intros H.
    - inv_bind H. destruct (negb _); [discriminate|]. inv_bind H. destruct (negb _); [discriminate|]. cbv zeta in H.
      do 9 inv_bind H. eauto.
    - do 5 inv_bind H. eauto.
  Qed.
  Lemma too_many level precessing frame n p h h0 w0 r0 : process level precessing frame None p h = (h0, (w0, Ok r0)) -> (0 <= n)%Q ->
    exists t ph i pm p0, times_of (p_dict C r0) t /\ nearest_to t (p_t_merger C r0) i /\
      wave_phase h0 (p_dict C r0) precessing ph /\ nth_error ph i = Some pm /\ nth_error ph 0 = Some p0 /\
      ((pm - wave_orbit * n < p0)%Q -> process level precessing frame (Some n) p h = (h0, (w0, Err GenericException))) /\
      ((p0 <= pm - wave_orbit * n)%Q -> exists h' r, process level precessing frame (Some n) p h = (h', (w0, Ok r))).
  Proof.
    intros H Hn. apply process_none_inv in H. destruct H as (f & H & ->). pose proof H as R. apply readw_ok in R.
    destruct R as (d0 & d' & t & tz & a & az & ph & pz & om & z & _ & _ & _ & _ & _ & _ & _ & Ef & Et & Em).
    apply mdata_ok in Em. destruct Em as (i & o & omm & p0 & M1 & (aa & M2 & _) & M3 & M4 & M5 & M6 & M7 & _).
    cbn [p_dict p_t_merger]. exists t, (f_phase C f), i, (f_phase_merger C f), p0.
    split; [unfold times_of; rewrite Ef; apply new_t|]. split; [exact M1|]. split; [rewrite Ef; eapply gw_ok; exact M2|].
    split; [exact M3|]. split; [exact M6|].
    assert (Qn : Qlt_bool n 0 = false) by (now apply Qlt_bool_false).
    split; intros HQ; rewrite process_reads; unfold mbind at 1; rewrite H; cbn [fst snd].
    - erewrite (step_err C (truncate C (Some n) f)); [cbn; now rewrite app_nil_r|]. unfold truncate. rewrite Qn.
      apply step_lift_err. eapply index_few; eauto.
    - destruct (index_before_merger (f_phase C f) (f_phase_merger C f) n) as [idx|e] eqn:Ei.
      2:{ eapply index_err in Ei; [|exact M6]. exfalso. destruct Ei as [Ei _]. exact (Qlt_not_le _ _ Ei HQ). }
      unfold truncate. rewrite Qn, Ef. apply gw_omega in M2. destruct M2 as [o' M2].
      unfold modes_at, sget, dget in M2. fold (slookup (new_dict C t tz a az ph pz om z) "omegalm") in M2. rewrite new_omegalm in M2. cbn [bind] in M2.
      assert (X : exists h' d', mbind C (mlift C (index_before_merger (f_phase C f) (f_phase_merger C f) n)) (fun idx =>
                 mbind C (cut_entry C idx (new_dict C t tz a az ph pz om z) "amplm") (fun d1 =>
                 mbind C (cut_entry C idx d1 "phaselm") (fun d2 => mbind C (cut_entry C idx d2 "omegalm") (fun d3 =>
                 mret C (sset d3 "t" (VArr C (firstn idx (f_t C f)))))))) h0 = (h', lret d')).
      { rewrite (step_lift _ _ _ _ idx Ei).
        rewrite (step_ok _ _ _ _ _ _ (cut_real C idx _ "amplm" _ h0 (new_amplm C t tz a az ph pz om z))).
        erewrite (step_ok _ (cut_entry C idx _ "phaselm")); [|apply cut_real; rewrite slookup_sset; apply new_phaselm].
        destruct om as [ |om| |q| ]; try discriminate.
        - erewrite (step_ok _ (cut_entry C idx _ "omegalm")); [|apply cut_real; rewrite !slookup_sset; apply new_omegalm]. eexists _, _. reflexivity.
        - cbn in M2. destruct (nth_error h0 q) as [[]|] eqn:Eq; try discriminate.
          erewrite (step_ok _ (cut_entry C idx _ "omegalm")); [|eapply cut_ref; [rewrite !slookup_sset; apply new_omegalm|exact Eq]].
          eexists _, _. reflexivity. }
      destruct X as (h' & d'' & X). rewrite (step_ok _ _ _ _ _ _ X). cbn. rewrite app_nil_r. eauto.
  Qed.

  (** ** the two ways in which the caller's data is changed *)
  Lemma process_parts level precessing frame num p h h' w r : process level precessing frame num p h = (h', (w, Ok r)) ->
    exists h0 w0 f w1 d, readw level precessing frame p h = (h0, (w0, Ok f)) /\ truncate C num f h0 = (h', (w1, Ok d)) /\
      p_dict C r = d.
  Proof.
    rewrite process_reads. intros H. apply mbind_ok in H. destruct H as (h0 & w1 & w2 & f & E & H & ->).
    apply mbind_ok in H. destruct H as (h2 & w3 & w4 & d & E2 & H & ->). apply ret_ok in H. destruct H as (-> & -> & ->). eauto 10.
  Qed.
  Lemma hlm_added level num p h h' w r d : is_dict h p d -> ~ has d "hlm" ->
    process level true "inertial" num p h = (h', (w, Ok r)) ->
    exists d2, is_dict h' p d2 /\ has d2 "hlm" /\
      (forall k, k <> "hlm" -> k <> "hlm_zeroecc" -> slookup d2 k = slookup d k) /\
      (forall q, q <> p -> nth_error h' q = nth_error h q).
  Proof.
    intros Hd Hn H. apply process_parts in H. destruct H as (h0 & w0 & f & w1 & d1 & R & T & _).
    apply readw_ok in R. destruct R as (d0 & d' & t & tz & a & az & ph & pz & om & z & D0 & _ & (w2 & w3 & Ch & _) & _ & _ & _ & Eo & Ef & _).
    assert (d0 = d) by (unfold is_dict in *; congruence). subst d0.
    assert (h' = h0).
    { transitivity (fst (truncate C num f h0)); [now rewrite T|]. eapply truncate_same; [exact Ef|]. right.
      pose proof (chosen_private _ _ _ _ _ _ _ _ _ _ _ _ _ Hd eq_refl Ch) as P.
      destruct (slookup d' "omegalm") eqn:E; [subst om; eapply private_lookup; eauto|]. destruct Eo as [o [_ ->]]. exact I. }
    subst h'. unfold DataLemmas.chosen in Ch. cbn [andb String.eqb Ascii.eqb Bool.eqb] in Ch.
    apply mbind_ok in Ch. destruct Ch as (h2 & w4 & w5 & u & E & Ch & _). apply log_ok in E. destruct E as [-> _].
    apply mbind_ok in Ch. destruct Ch as (h3 & w6 & w7 & d2 & E & Ch & _).
    assert (h0 = h3).
    { destruct (_ || _).
      - transitivity (fst (transform_inertial_to_coprecessing C cabs cphase cpolar rotate level (Own C d2) "_zeroecc" h3)); [now rewrite Ch|].
        apply transform_own_silent.
      - apply ret_ok in Ch. apply Ch. }
    subst h3. eapply trans_ok in E; [|cbn [top_of]; rewrite Hd; reflexivity].
    destruct E as (m & d3 & [(_ & E & _)|(_ & (e & -> & Ke) & -> & _)] & _ & E3); [elim Hn; exact E|].
    exists (dupdate String.eqb d e).
    assert (Hp : p < length h) by (apply nth_error_Some; unfold is_dict in Hd; congruence).
    split; [unfold is_dict; rewrite nth_set, Nat.eqb_refl, (proj2 (Nat.ltb_lt _ _)) by exact Hp; reflexivity|].
    split; [exact E3|]. split.
    - intros k K1 K2. clear -Ke K1 K2. assert (~ has e k) by (unfold has; destruct Ke as [-> | ->]; cbn; intuition congruence).
      clear Ke. revert d. induction e as [|[k' v] e IH]; intros d; [reflexivity|]. cbn [dupdate]. rewrite IH.
      + change (dset String.eqb d k' v) with (sset d k' v). rewrite slookup_sset. destruct (String.eqb k k') eqn:E; [|reflexivity].
        apply String.eqb_eq in E. subst k'. elim H. left. reflexivity.
      + intros X. apply H. right. exact X.
    - intros q Hq. rewrite nth_set. destruct (p =? q) eqn:E; [apply Nat.eqb_eq in E; congruence|reflexivity].
  Qed.
  Lemma second_call_rejected level num p h h' w r d num' level' prec' frame' : is_dict h p d -> ~ has d "hlm" ->
    process level true "inertial" num p h = (h', (w, Ok r)) ->
    process level' prec' frame' num' p h' = (h', ([], Err GenericException)).
  Proof.
    intros Hd Hn H. destruct (process_needs_dict _ _ _ _ _ _ _ _ _ _ _ _ _ _ _ H) as (d' & Hd' & Ho).
    assert (d' = d) by (unfold is_dict in *; congruence). subst d'.
    destruct (hlm_added _ _ _ _ _ _ _ _ Hd Hn H) as (d2 & D2 & K & L & _).
    apply rejected with d2; [exact D2|]. intros [[(_ & A & _)|(A & _)] _]; [|contradiction].
    destruct Ho as [[(X & _)|(_ & Ha & _)] _]; [contradiction|]. apply A. apply lookup_has in Ha. destruct Ha as [v Ha].
    eapply has_lookup. rewrite L; [exact Ha|discriminate|discriminate].
  Qed.

  (** truncation of a given omegalm *)
  Lemma omegalm_shortened level precessing frame n p h h' w r d q ms : is_dict h p d -> precessing = false \/ frame <> "inertial" ->
    slookup d "omegalm" = Some (VRef C q) -> nth_error h q = Some (OReal C ms) ->
    process level precessing frame (Some n) p h = (h', (w, Ok r)) ->
    exists h0 w0 r0, process level precessing frame None p h = (h0, (w0, Ok r0)) /\ h0 = h /\
      forall N, same_length h (p_dict C r0) N ->
      exists idx ms', idx < N /\ nth_error h' q = Some (OReal C ms') /\
        (forall m x, dlookup mode_eqb ms m = Some x -> dlookup mode_eqb ms' m = Some (firstn idx x) /\ length (firstn idx x) < length x).
  Proof.
    intros Hd Hp Ho Hq H. pose proof (truncated _ _ _ _ _ _ _ _ _ H) as Tr.
    destruct Tr as (h0 & r0 & _ & _ & _ & _ & _ & PN & _).
    exists h0, w, r0. split; [exact PN|].
    pose proof PN as PN2. apply process_none_inv in PN2. destruct PN2 as (f0 & R0 & E0).
    assert (h0 = h).
    { apply readw_ok in R0. destruct R0 as (d0 & d' & t & tz & a & az & ph & pz & om & z & D0 & _ & (w2 & w3 & Ch & _) & _).
      rewrite chosen_plain in Ch by exact Hp. injection Ch as <- _. reflexivity. }
    subst h0. split; [reflexivity|]. intros N SL.
    destruct (aligned _ _ _ _ _ _ _ _ _ _ _ _ N H PN SL) as (idx & HN & SL2).
    apply process_parts in H. destruct H as (h0 & w0 & f & w1 & d1 & R & T & Ed).
    rewrite R0 in R. injection R as <- <- <-.
    apply readw_ok in R0. destruct R0 as (d0 & d' & t & tz & a & az & ph & pz & om & z & D0 & _ & (w2 & w3 & Ch & _) & _ & _ & _ & Eo & Ef & Et & _).
    assert (d0 = d) by (unfold is_dict in *; congruence). subst d0. rewrite chosen_plain in Ch by exact Hp. injection Ch as <- <-.
    rewrite Ho in Eo. subst om.
    eapply truncate_ok in T; [|exact Ef|exact Et]. destruct T as (-> & _ & idx' & _ & T1 & _ & _ & [(o & X & _)|(q' & o & Eq & Hq' & -> & T2)] & _); [discriminate|].
    injection Eq as <-. assert (o = ms) by congruence. subst o.
    exists idx', (cut_modes idx' ms).
    assert (Lt : idx' < N).
    { destruct SL as [SLt SLa]. destruct SL2 as [St _]. assert (Tt : times_of (p_dict C r0) t).
      { unfold times_of. rewrite E0. cbn [p_dict]. rewrite Ef. apply new_t. }
      specialize (SLt t Tt). specialize (St (firstn idx' t)). unfold times_of in St. rewrite Ed in St. specialize (St T1).
      rewrite firstn_length, SLt in St. lia. }
    split; [exact Lt|]. split.
    - rewrite nth_set, Nat.eqb_refl. assert (q < length h) by (apply nth_error_Some; congruence). now rewrite (proj2 (Nat.ltb_lt _ _)).
    - intros m x Hx. rewrite cut_lookup, Hx. cbn [option_map]. split; [reflexivity|].
      assert (length x = N).
      { destruct SL as [_ SLa]. apply (SLa "omegalm" m x); [cbn; auto|]. rewrite E0. cbn [p_dict]. rewrite Ef.
        eapply array_ref; [apply new_omegalm|exact Hq|exact Hx]. }
      rewrite firstn_length. lia.
  Qed.

  Lemma modes_real h d key ms : slookup d key = Some (VReal C ms) -> modes_at C h d key = Ok ms.
  Proof. intros H. unfold modes_at, sget, dget. fold (slookup d key). now rewrite H. Qed.
  Lemma modes_ref h d key q ms : slookup d key = Some (VRef C q) -> nth_error h q = Some (OReal C ms) -> modes_at C h d key = Ok ms.
  Proof. intros H E. unfold modes_at, sget, dget. fold (slookup d key). rewrite H. cbn. now rewrite E. Qed.
  Lemma mget_cut idx ms m a : mget ms m = Ok a -> mget (cut_modes idx ms) m = Ok (firstn idx a).
  Proof. rewrite !mget_ok, cut_lookup. now intros ->. Qed.
  Lemma gw_cut h h' precessing t tz a az ph pz q z ms idx am p o :
    nth_error h q = Some (OReal C ms) -> nth_error h' q = Some (OReal C (cut_modes idx ms)) ->
    get_amp_phase_omega_gw C h precessing (new_dict C t tz a az ph pz (VRef C q) z) "" = Ok (am, p, o) ->
    get_amp_phase_omega_gw C h' precessing (new_dict C t tz a az ph pz (VRef C q) z) "" = Ok (am, p, firstn idx o).
  Proof.
    intros H1 H2. unfold get_amp_phase_omega_gw. cbn [append].
    rewrite !(modes_real _ _ "amplm" a (new_amplm C t tz a az ph pz (VRef C q) z)).
    rewrite !(modes_real _ _ "phaselm" ph (new_phaselm C t tz a az ph pz (VRef C q) z)).
    rewrite (modes_ref h _ "omegalm" q ms (new_omegalm C t tz a az ph pz (VRef C q) z) H1).
    rewrite (modes_ref h' _ "omegalm" q _ (new_omegalm C t tz a az ph pz (VRef C q) z) H2).
    cbn [bind]. destruct precessing; cbn [negb]; intros H.
    - destruct (negb _); [discriminate|]. destruct (negb _); [discriminate|]. cbv zeta in *.
      inv_bind H. rewrite E. cbn [bind]. inv_bind H. rewrite E0. cbn [bind]. inv_bind H. rewrite E1. cbn [bind].
      inv_bind H. rewrite E2. cbn [bind]. inv_bind H. rewrite E3. cbn [bind]. inv_bind H. rewrite E4. cbn [bind].
      inv_bind H. rewrite (mget_cut _ _ _ _ E5). cbn [bind]. inv_bind H. rewrite (mget_cut _ _ _ _ E6). cbn [bind].
      inv_bind H. apply Ok_inj in H. injection H as <- <- <-. apply zip_ok in E7. destruct E7 as [L ->].
      unfold zip_with. rewrite !firstn_length, L, Nat.eqb_refl. cbn [bind]. now rewrite firstn_map2.
    - inv_bind H. rewrite E. cbn [bind]. inv_bind H. rewrite E0. cbn [bind]. inv_bind H. rewrite (mget_cut _ _ _ _ E1). cbn [bind].
      apply Ok_inj in H. injection H as <- <- <-. reflexivity.
  Qed.
  (** nothing but the frequency is read from object q *)
  Definition only_omega (d : sdict dval) (q : nat) : Prop := forall k, slookup d k = Some (VRef C q) -> k = "omegalm".
  Lemma amplm_other h h' d s q : s = "" \/ s = "_zeroecc" -> only_omega d q -> (forall i, i <> q -> nth_error h' i = nth_error h i) ->
    amplm_for C cabs h' d s = amplm_for C cabs h d s /\ phaselm_for C cphase h' d s = phaselm_for C cphase h d s.
  Proof.
    intros Hs Hq Hh.
    assert (R : forall k v, k <> "omegalm" -> slookup d k = Some v -> real_of C h' v = real_of C h v /\ cplx_of C h' v = cplx_of C h v).
    { intros k v Hk Hv. destruct v; auto. cbn. rewrite Hh; [auto|]. intros ->. apply Hk. now apply Hq. }
    assert (K : ("amplm" ++ s)%string <> "omegalm" /\ ("phaselm" ++ s)%string <> "omegalm" /\ ("hlm" ++ s)%string <> "omegalm").
    { destruct Hs as [-> | ->]; repeat split; discriminate. }
    destruct K as (K1 & K2 & K3). unfold amplm_for, phaselm_for. split.
    - destruct (slookup d ("amplm" ++ s)) eqn:E; [apply (R _ _ K1 E)|].
      destruct (slookup d ("hlm" ++ s)) eqn:E2; [|reflexivity]. now rewrite (proj2 (R _ _ K3 E2)).
    - destruct (slookup d ("phaselm" ++ s)) eqn:E; [apply (R _ _ K2 E)|].
      destruct (slookup d ("hlm" ++ s)) eqn:E2; [|reflexivity]. now rewrite (proj2 (R _ _ K3 E2)).
  Qed.
  Lemma apo_other h h' d q r : only_omega d q -> (forall i, i <> q -> nth_error h' i = nth_error h i) ->
    get_amp_phase_omega_data C cabs cphase h d = Ok r -> get_amp_phase_omega_data C cabs cphase h' d = Ok r.
  Proof.
    intros Hq Hh. unfold get_amp_phase_omega_data, get_amplm_from_dataDict, get_phaselm_from_dataDict.
    destruct (amplm_other h h' d "" q (or_introl eq_refl) Hq Hh) as [-> ->].
    destruct (amplm_other h h' d "_zeroecc" q (or_intror eq_refl) Hq Hh) as [-> ->].
    destruct (amplm_for C cabs h d "") as [a|]; [cbn [bind]|discriminate].
    destruct (amplm_for C cabs h d "_zeroecc") as [az|]; [cbn [bind]|discriminate].
    destruct (phaselm_for C cphase h d "") as [ph|]; [cbn [bind]|discriminate].
    destruct (phaselm_for C cphase h d "_zeroecc") as [pz|]; [cbn [bind]|discriminate].
    cbv zeta. match goal with |- context [sget ?x "phaselm"] => set (ap := x) end.
    assert (E : sget ap "phaselm" = Ok (VReal C ph)) by (unfold ap; destruct az; reflexivity).
    rewrite E. cbn [bind real_of].
    assert (E2 : slookup ap "phaselm_zeroecc" = match pz with [] => None | _ => Some (VReal C pz) end)
      by (unfold ap; destruct az, pz; reflexivity).
    rewrite E2. destruct (match slookup d "omegalm" with Some v => Ok v | None => _ end) as [w|]; [|discriminate]. cbn [bind].
    destruct (slookup d "omegalm_zeroecc"); [auto|]. destruct pz; auto.
  Qed.
  Lemma nearest_before ph i pm target idx : increasing ph -> nth_error ph i = Some pm -> (target <= pm)%Q -> nearest_to ph target idx -> idx <= i.
  Proof.
    intros Hi Hp Ht (y & Hy & Hn). destruct (le_lt_dec idx i) as [L|L]; [exact L|exfalso].
    specialize (Hi i idx pm y L Hp Hy). specialize (Hn i pm Hp).
    rewrite (Qabs_pos (y - target)), (Qabs_pos (pm - target)) in Hn by lra. lra.
  Qed.
  Lemma wave_orbit_pos : (0 <= wave_orbit)%Q.
  Proof. unfold wave_orbit, np_pi. now vm_compute. Qed.
  Lemma nth_firstn_none {A} (l : list A) n i : n <= i -> nth_error (firstn n l) i = None.
  Proof. intros H. apply nth_error_None. rewrite firstn_length. lia. Qed.
  Lemma omegalm_second level precessing frame n p h h' w r d q ms level' num' :
    is_dict h p d -> precessing = false \/ frame <> "inertial" ->
    slookup d "omegalm" = Some (VRef C q) -> only_omega d q -> nth_error h q = Some (OReal C ms) ->
    process level precessing frame (Some n) p h = (h', (w, Ok r)) ->
    (forall ph, (exists r0 w0, process level precessing frame None p h = (h, (w0, Ok r0)) /\ wave_phase h (p_dict C r0) precessing ph) -> increasing ph) ->
    process level' precessing frame num' p h' = (h', ([], Err IndexError)).
  Proof.
    intros Hd Hp Ho Hu Hq H Hinc.
    apply process_parts in H. destruct H as (h0 & w0 & f & w1 & d1 & R & T & Ed).
    pose proof R as R0. apply readw_ok in R0.
    destruct R0 as (d0 & d' & t & tz & a & az & ph & pz & om & z & D0 & Rep & (w2 & w3 & Ch & Rest) & Et0 & _ & _ & Eo & Ef & Et & Em).
    assert (d0 = d) by (unfold is_dict in *; congruence). subst d0. rewrite chosen_plain in Ch by exact Hp. injection Ch as <- _ <-.
    rewrite Ho in Eo. subst om. pose proof Em as Em0.
    apply mdata_ok in Em. destruct Em as (i & o & omm & p0 & M1 & (aa & M2 & _) & M3 & M4 & M5 & M6 & M7 & _ & _ & _ & M8).
    assert (Inc : increasing (f_phase C f)).
    { apply Hinc. eexists _, w0. split; [eapply process_none; exact R|]. cbn [p_dict]. rewrite Ef. eapply gw_ok; exact M2. }
    eapply truncate_ok in T; [|exact Ef|exact Et]. destruct T as (-> & Hn & idx & Hi & _ & _ & _ & [(o' & X & _)|(q' & o' & Eq & Hq' & -> & _)] & _); [discriminate|].
    injection Eq as <-. assert (o' = ms) by congruence. subst o'. apply index_ok in Hi. destruct Hi as [Hi _].
    set (h' := set_nth h q (OReal C (cut_modes idx ms))).
    assert (Hq2 : nth_error h' q = Some (OReal C (cut_modes idx ms))).
    { unfold h'. rewrite nth_set, Nat.eqb_refl. assert (q < length h) by (apply nth_error_Some; congruence). now rewrite (proj2 (Nat.ltb_lt _ _)). }
    assert (Hh : forall j, j <> q -> nth_error h' j = nth_error h j).
    { intros j Hj. unfold h'. rewrite nth_set. destruct (q =? j) eqn:E; [apply Nat.eqb_eq in E; congruence|reflexivity]. }
    assert (Hd' : is_dict h' p d).
    { unfold is_dict in *. rewrite Hh; [exact Hd|]. intros ->. congruence. }
    assert (Li : idx <= i).
    { eapply nearest_before; [exact Inc|exact M3| |exact Hi]. pose proof wave_orbit_pos as W.
      assert (0 <= wave_orbit * n)%Q by (apply Qmult_le_0_compat; assumption). lra. }
    rewrite process_reads. apply step_err.
    erewrite (proj2 (readw_start _ _ _ _ _ _ level' precessing frame p h' d Hd') Rep).
    rewrite (step_ok _ _ _ _ _ _ (chosen_plain _ _ _ _ _ level' precessing frame p d h' Hp)).
    pose proof Rest as Rest0. unfold DataLemmas.rest in Rest0 |- *. rewrite Et0 in Rest0 |- *. cbn [arr_of] in Rest0 |- *.
    rewrite (step_lift _ _ _ _ t eq_refl) in Rest0. rewrite (step_lift _ _ _ _ t eq_refl).
    apply mbind_ok in Rest0. destruct Rest0 as (h1 & w4 & w5 & apo & A1 & A2 & _). apply read_ok in A1. destruct A1 as (-> & _ & A1).
    rewrite (step_read _ _ _ _ apo) by (eapply apo_other; eauto).
    apply read_ok in A2. destruct A2 as (_ & _ & A2).
    assert (Nd : (("t", VArr C t) :: match slookup d "t_zeroecc" with Some v => [("t_zeroecc", v)] | None => [] end ++ apo)%list
                 = new_dict C t tz a az ph pz (VRef C q) z).
    { apply mdata_ok in A2. destruct A2 as (? & ? & ? & ? & _ & _ & _ & _ & _ & _ & _ & _ & _ & A2 & _). congruence. }
    rewrite Nd in *. unfold mread. do 2 f_equal. unfold lift. f_equal.
    clear A2. revert Em0. unfold merger_data.
    rewrite !(modes_real _ _ "amplm" a (new_amplm C t tz a az ph pz (VRef C q) z)). cbn [bind].
    intros E. inv_bind E. rewrite E0. cbn [bind]. inv_bind E. rewrite E1. cbn [bind]. cbv zeta in *. inv_bind E. rewrite E2. cbn [bind].
    inv_bind E. destruct v2 as [[a2 p2] o2]. rewrite (gw_cut h h' precessing _ _ _ _ _ _ q _ ms idx a2 p2 o2 Hq Hq2 E3).
    cbn [bind]. rewrite M2 in E3. injection E3 as <- <- <-. inv_bind E. rewrite E3. cbn [bind]. inv_bind E. rewrite E4. cbn [bind]. inv_bind E.
    assert (Hv : v1 = i).
    { inv_bind E. destruct (Qlt_bool _ _); [discriminate|]. destruct (Qlt_bool _ _); [discriminate|]. inv_bind E. apply Ok_inj in E.
      rewrite <- E in M8. cbn [f_t_merger] in M8. congruence. }
    subst v1. unfold get. rewrite nth_firstn_none by exact Li. reflexivity.
  Qed.
End S.
