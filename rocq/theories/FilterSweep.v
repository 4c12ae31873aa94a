(** Proofs about the segments of the spin filter and its sweep over the data. *)
From Coq Require Import Lia Lqa Sorted.
From Verif Require Import Base BaseLemmas UtilsModel UtilsSpec MeasureModel AverageLemmas SegmentModel SegmentLemmas DataModel DataLemmas DataLemmas2 InitModel
  FitsSpec FitsClaims FilterModel FilterSpec FilterLemmas FilterCombine.
Open Scope nat_scope.

Lemma right_le l v : forall k x, nth_error l k = Some x -> k < searchsorted_right l v -> (x <= v)%Q.
Proof.
  intros k x Hk. unfold searchsorted_right. destruct (find_index _ l) as [i|] eqn:E; intros L.
  - apply find_index_some in E. destruct E as [_ E]. specialize (E k x L Hk). cbn in E. now apply Qlt_bool_false in E.
  - assert (E' := find_index_none _ _ E k x Hk). cbn in E'. now apply Qlt_bool_false in E'.
Qed.
Lemma right_gt l v : increasing l -> forall k x, nth_error l k = Some x -> searchsorted_right l v <= k -> (v < x)%Q.
Proof.
  intros I k x Hk. unfold searchsorted_right. destruct (find_index _ l) as [i|] eqn:E; intros L.
  - apply find_index_some in E. destruct E as [[y [E1 E2]] _]. apply Qlt_bool_iff in E2.
    destruct (Nat.eq_dec i k) as [->|N]; [congruence|]. assert (y < x)%Q by (apply (I i k); auto; lia). lra.
  - assert (k < length l) by (apply nth_error_Some; congruence). lia.
Qed.
Lemma right_bound l v : searchsorted_right l v <= length l.
Proof.
  unfold searchsorted_right. destruct (find_index _ l) as [i|] eqn:E; [|lia]. apply find_index_some in E. destruct E as [(y & E & _) _].
  apply Nat.lt_le_incl, nth_error_Some. congruence.
Qed.
Lemma increasing_le t : increasing t -> forall i j a b, i <= j -> nth_error t i = Some a -> nth_error t j = Some b -> (a <= b)%Q.
Proof.
  intros I i j a b L A B. destruct (Nat.eq_dec i j) as [->|]; [assert (a = b) by congruence; subst; apply Qle_refl|]. apply Qlt_le_weak, (I i j); auto; lia.
Qed.

Section Sweep.
  Variable F : fourier.

  Lemma segment_cut b size t_mid ts ds : increasing (ob_t b) -> length (ob_data b) = length (ob_t b) -> make_segment b size t_mid = Ok (ts, ds) ->
    let half := ((1 # 2) * size * ob_delta_T b t_mid)%Q in
    exists j, cut (ob_t b) (ob_data b) (t_mid - half) (t_mid + half) ts ds j.
  Proof.
    intros I L H half. unfold make_segment in H. fold half in H. apply bind_ok in H; destruct H as (t0 & E0 & H). apply bind_ok in H; destruct H as (tn & En & H).
    apply get_ok in E0. apply last_of_nth in En. destruct En as [En NE]. set (t := ob_t b) in *. set (lo := (t_mid - half)%Q) in *. set (hi := (t_mid + half)%Q) in *.
    set (i := searchsorted t (Qmaxb t0 lo)) in H. assert (RB := right_bound t (Qminb tn hi)).
    rewrite Nat.min_l in H by exact RB. set (j := searchsorted_right t (Qminb tn hi)) in *. apply Ok_inj in H. inversion H; subst ts ds; clear H.
    assert (LS : length (slice t i j) = j - i) by (rewrite slice_length; lia).
    assert (LD : length (slice (ob_data b) i j) = j - i) by (rewrite slice_length; lia).
    exists i. split; [lia|]. rewrite LS. split.
    - intros k a Hk. assert (k < length t) by (apply nth_error_Some; congruence).
      assert (A0 : (t0 <= a)%Q) by (apply (increasing_le t I 0 k); auto; lia).
      assert (An : (a <= tn)%Q) by (apply (increasing_le t I k (length t - 1)); auto; lia).
      destruct (Qmaxb_spec t0 lo) as (M1 & M2 & M3). destruct (Qminb_spec tn hi) as (N1 & N2 & N3).
      split.
      + intros [H1 H2]. assert (i <= k).
        { destruct (Nat.le_gt_cases i k) as [|G]; [assumption|]. assert (X := searchsorted_ok t _ k a Hk G). destruct M3 as [M3|M3]; rewrite M3 in X; lra. }
        assert (k < j); [|lia]. destruct (Nat.lt_ge_cases k j) as [|G]; [assumption|]. assert (X := right_gt t _ I k a Hk G). destruct N3 as [N3|N3]; rewrite N3 in X; lra.
      + intros [H1 H2]. assert (X := searchsorted_ge t _ I k a Hk H1). assert (Y := right_le t (Qminb tn hi) k a Hk). fold j in Y. assert (k < j) as Z by lia. specialize (Y Z). split; lra.
    - intros k Hk. rewrite !nth_error_slice. destruct (Nat.ltb_spec k (j - i)); [|lia]. repeat (split; [reflexivity|]). apply nth_error_Some. lia.
  Qed.

  (** what a filtered segment consists of *)
  Lemma segment_ok b o t_mid s : increasing (ob_t b) -> length (ob_data b) = length (ob_t b) -> filter_segment F b o t_mid = Ok s ->
    let half := ((1 # 2) * k_size o * ob_delta_T b t_mid)%Q in
    exists j trend, cut (ob_t b) (ob_data b) (t_mid - half) (t_mid + half) (sg_t s) (sg_data s) j /\ 2 <= length (sg_t s) /\ placed (ob_t b) s j /\
      fo_trend F (ob_amp b) (ob_t_merger b) (sg_t s) (sg_data s) = Ok trend /\ (forall a, In a (sg_t s) -> (a < ob_t_merger b)%Q) /\
      sg_secular s = map trend (sg_t s) /\ sg_residual s = map2 Qminus (sg_data s) (sg_secular s) /\ length (sg_smooth s) = length (sg_t s) /\
      sg_filtered s = map2 Qplus (sg_secular s) (sg_smooth s) /\ (0 < k_pad o)%Z /\
      (sg_guess s == 1 / ob_delta_T b t_mid)%Q /\ get_fcut (sg_freqs s) (sg_spectrum s) (sg_guess s) (k_s_lo o) (k_s_hi o) (k_e_lo o) (k_e_hi o) = Ok (sg_cutoff s, sg_ecc s, sg_spin s) /\
      exists mask z, make_lowpass_mask F (sg_freqs s) (sg_cutoff s) (k_taper o) = Ok mask /\ z = repeat 0%Q (Z.to_nat (k_pad o)) /\
        sg_smooth s = zslice (fo_lowpass F (z ++ sg_residual s ++ z) mask) (k_pad o) (- k_pad o).
  Proof.
    intros I L H half. unfold filter_segment in H. apply bind_ok in H; destruct H as ([ts ds] & Es & H).
    destruct (segment_cut b (k_size o) t_mid ts ds I L Es) as (j & CUT). fold half in CUT.
    apply bind_ok in H; destruct H as (trend & Et & H). cbv zeta in H.
    apply bind_ok in H; destruct H as (residual & Er & H). apply zip_ok in Er. destruct Er as [Lr Er].
    apply bind_ok in H; destruct H as (windowed & Ew & H). apply bind_ok in Ew; destruct Ew as (ham & Eh & Ew). apply zip_ok in Eh. destruct Eh as [Lh Eh].
    apply bind_ok in H; destruct H as (plain & Ep & H). apply bind_ok in H; destruct H as ([] & Ez & H).
    apply bind_ok in H; destruct H as (t1 & E1 & H). apply bind_ok in H; destruct H as (t0 & E0 & H).
    apply bind_ok in H; destruct H as (guess & Eg & H). apply bind_ok in H; destruct H as (freqs & Ef & H).
    apply bind_ok in H; destruct H as ([[fc fe] fs] & Ec & H). apply bind_ok in H; destruct H as (freqs' & Ef' & H).
    apply bind_ok in H; destruct H as (mask & Em & H). apply bind_ok in H; destruct H as (filtered & Efl & H). apply zip_ok in Efl. destruct Efl as [Lfl Efl].
    apply Ok_inj in H. subst s. cbn [sg_t sg_data sg_secular sg_residual sg_smooth sg_filtered sg_freqs sg_spectrum sg_spin sg_ecc sg_guess sg_cutoff].
    assert (L2 : 2 <= length ts) by (apply get_range in E1; lia).
    rewrite map_length in Lfl.
    assert (PP : (0 < k_pad o)%Z).
    { unfold pad in Ep. destruct (Z.ltb_spec (k_pad o) 0); [discriminate|]. destruct (Z.eq_dec (k_pad o) 0) as [Z0|]; [|lia]. exfalso.
      rewrite Z0 in Lfl. unfold zslice, norm_bound in Lfl. cbn in Lfl. lia. }
    unfold pad in Ew, Ep. destruct (Z.ltb_spec (k_pad o) 0); [lia|]. apply Ok_inj in Ew, Ep.
    assert (LR : length residual = length ts) by (subst residual; rewrite map2_length, map_length; destruct CUT as [C1 _]; lia).
    assert (LW : length windowed = length plain).
    { subst windowed plain ham. rewrite !app_length, map2_length. rewrite Lh. rewrite Nat.min_id. reflexivity. }
    rewrite LW in Ef. assert (freqs' = freqs) by congruence. subst freqs'.
    unfold pn_fit in Et. destruct (existsb _ ts) eqn:Ex; [discriminate|].
    exists j, trend. split; [exact CUT|]. split; [exact L2|]. split.
    { destruct CUT as (C1 & C2 & C3). split; [|split; [cbn; lia|]].
      - cbn. subst filtered. rewrite map2_length, map_length. lia.
      - cbn. intros k Hk. destruct (C3 k Hk) as (D1 & _ & D3). auto. }
    split; [exact Et|]. split.
    { intros a Ha. destruct (Qlt_le_dec a (ob_t_merger b)) as [|G]; [assumption|]. exfalso. apply Qle_bool_iff in G.
      assert (existsb (fun s => Qle_bool (ob_t_merger b) s) ts = true) by (apply existsb_exists; eauto). congruence. }
    split; [reflexivity|]. split; [exact Er|]. split; [lia|]. split; [exact Efl|]. split; [exact PP|]. split.
    { destruct (Qeq_bool (ob_delta_T b t_mid) 0); [discriminate|]. apply Ok_inj in Eg. subst guess. reflexivity. }
    split; [exact Ec|]. exists mask, (repeat 0%Q (Z.to_nat (k_pad o))). split; [exact Em|]. split; [reflexivity|]. now rewrite <- Ep.
  Qed.
  (** the same in full: spectrum, frequencies, mask and low-pass *)
  Lemma slice_nth (l r : list Q) p k : (0 < p)%Z -> zslice l p (- p) = r -> k < length r -> nth_error r k = nth_error l (Z.to_nat p + k).
  Proof.
    intros P <- K. unfold zslice, norm_bound, slice in *. destruct (Z.leb_spec 0 p); [|lia]. destruct (Z.leb_spec 0 (- p)); [lia|].
    rewrite firstn_length, skipn_length in K. rewrite nth_error_firstn.
    match goal with |- context [(k <? ?m)] => destruct (Nat.ltb_spec k m) as [|G]; [|lia] end. apply nth_error_skipn.
  Qed.
  Lemma mask_tapered freqs fc w m : make_lowpass_mask F freqs fc w = Ok m -> tapered (fo_cos F) freqs fc w m.
  Proof.
    unfold make_lowpass_mask. destruct (_ && _)%bool; [discriminate|]. intros H. apply Ok_inj in H. subst m. split; [now rewrite map_length|].
    intros k f v A B. rewrite nth_error_map, A in B. cbn [option_map] in B. apply Some_inj in B. subst v.
    destruct (Qlt_bool (fc * (1 + w)) f) eqn:E1.
    - apply Qlt_bool_iff in E1. split; [reflexivity|]. split; [intros _ G|intros _ G]; exfalso; now apply (Qlt_not_le _ _ E1).
    - apply Qlt_bool_false in E1. split; [intros G; exfalso; now apply (Qlt_not_le _ _ G)|]. split.
      + intros G1 G2. apply Qle_bool_iff in G1, G2. now rewrite G1, G2.
      + intros G _. destruct (Qle_bool (fc * (1 - w)) f) eqn:E2; [|reflexivity]. apply Qle_bool_iff in E2. exfalso. now apply (Qlt_not_le _ _ G).
  Qed.
  Lemma rfftfreq_ok n d freqs : rfftfreq n d = Ok freqs -> frequencies_of n d freqs.
  Proof.
    unfold rfftfreq. cbv zeta. destruct (Qeq_bool _ 0) eqn:E; [discriminate|]. intros H. apply Ok_inj in H. subst freqs. apply Qeq_bool_neq in E. split.
    - rewrite map_length, seq_length. reflexivity.
    - intros k f A. rewrite nth_error_map in A. destruct (nth_error (seq 0 _) k) as [j|] eqn:J; [|discriminate]. cbn [option_map] in A. apply Some_inj in A. subst f.
      assert (j = k). { assert (k < S (n / 2)). { rewrite <- (seq_length (S (n / 2)) 0). apply nth_error_Some. congruence. }
        rewrite (nth_error_nth' _ 0) in J by (rewrite seq_length; lia). rewrite seq_nth in J by lia. apply Some_inj in J. lia. }
      subst j. field. split; intros Z0; apply E; rewrite Z0; ring.
  Qed.
  Lemma segment_all b o t_mid s : increasing (ob_t b) -> length (ob_data b) = length (ob_t b) -> filter_segment F b o t_mid = Ok s ->
    let half := ((1 # 2) * k_size o * ob_delta_T b t_mid)%Q in let p := Z.to_nat (k_pad o) in let n := length (sg_t s) + 2 * p in
    exists j trend t0 t1 windowed mask, cut (ob_t b) (ob_data b) (t_mid - half) (t_mid + half) (sg_t s) (sg_data s) j /\ 0 < p /\
      (forall a, In a (sg_t s) -> (a < ob_t_merger b)%Q) /\ fo_trend F (ob_amp b) (ob_t_merger b) (sg_t s) (sg_data s) = Ok trend /\
      sg_secular s = map trend (sg_t s) /\ pointwise Qminus (sg_data s) (sg_secular s) (sg_residual s) /\
      nth_error (sg_t s) 0 = Some t0 /\ nth_error (sg_t s) 1 = Some t1 /\
      pointwise Qmult (fo_hamming F (length (sg_t s))) (sg_residual s) windowed /\
      frequencies_of n (t1 - t0) (sg_freqs s) /\ normalized n (fo_abs_rfft F (padded p windowed)) (sg_spectrum s) /\
      (sg_guess s == 1 / ob_delta_T b t_mid)%Q /\ cutoff_of (sg_freqs s) (sg_spectrum s) (sg_guess s) o (sg_cutoff s) (sg_ecc s) (sg_spin s) /\
      tapered (fo_cos F) (sg_freqs s) (sg_cutoff s) (k_taper o) mask /\ length (sg_smooth s) = length (sg_t s) /\
      (forall k, k < length (sg_t s) -> nth_error (sg_smooth s) k = nth_error (fo_lowpass F (padded p (sg_residual s)) mask) (p + k)) /\
      pointwise Qplus (sg_secular s) (sg_smooth s) (sg_filtered s).
  Proof.
    intros I L H half p n. destruct (segment_ok b o t_mid s I L H) as (j & trend & CUT & L2 & PL & Et & Hm & Es & Er & Lm & Ef & PP & Eg & Ec & mask & z & Em & Ez & Esm).
    unfold filter_segment in H. apply bind_ok in H; destruct H as ([ts ds] & Eseg & H).
    apply bind_ok in H; destruct H as (trend' & Et' & H). cbv zeta in H. apply bind_ok in H; destruct H as (residual & Er' & H).
    apply bind_ok in H; destruct H as (windowed & Ew & H). apply bind_ok in Ew; destruct Ew as (ham & Eh & Ew).
    apply bind_ok in H; destruct H as (plain & Ep & H). apply bind_ok in H; destruct H as ([] & _ & H).
    apply bind_ok in H; destruct H as (t1 & E1 & H). apply bind_ok in H; destruct H as (t0 & E0 & H).
    apply bind_ok in H; destruct H as (guess & Eg' & H). apply bind_ok in H; destruct H as (freqs & Efr & H).
    apply bind_ok in H; destruct H as ([[fc fe] fs] & Ec' & H). apply bind_ok in H; destruct H as (freqs' & Ef' & H).
    apply bind_ok in H; destruct H as (mask' & Em' & H). apply bind_ok in H; destruct H as (filtered & Efl & H).
    apply Ok_inj in H. subst s. unfold n in *. cbn [sg_t sg_data sg_secular sg_residual sg_smooth sg_filtered sg_freqs sg_spectrum sg_spin sg_ecc sg_guess sg_cutoff] in *.
    assert (LR : length residual = length ts). { rewrite Er, map2_length, map_length. destruct CUT as [C1 _]. lia. }
    unfold pad in Ew. destruct (Z.ltb_spec (k_pad o) 0); [lia|]. apply Ok_inj in Ew. rewrite LR in Eh.
    apply zip_pointwise in Er', Eh, Efl.
    assert (LH : length ham = length ts). { destruct Eh as (X & Y & _). lia. }
    assert (LW : length windowed = length ts + 2 * p). { subst windowed. rewrite !app_length, repeat_length, LH. fold p. lia. }
    exists j, trend, t0, t1, ham, mask. split; [exact CUT|]. split; [unfold p; lia|]. split; [exact Hm|]. split; [exact Et|]. split; [exact Es|].
    split; [exact Er'|]. split; [now apply get_ok|]. split; [now apply get_ok|]. split; [exact Eh|].
    split; [rewrite LW in Efr; now apply rfftfreq_ok|]. split.
    { rewrite LW. fold p in Ew. unfold padded. rewrite Ew. split; [now rewrite map_length|]. intros k a v A B. rewrite nth_error_map, A in B. cbn in B. apply Some_inj in B. now subst v. }
    split; [exact Eg|]. split; [exact (fcut_ok _ _ _ _ _ _ _ _ _ _ Ec)|]. split; [now apply mask_tapered|]. split; [exact Lm|]. split; [|exact Efl].
    intros k K. subst z. apply (slice_nth _ _ _ k PP (eq_sym Esm)). lia.
  Qed.
  (** a segment with two samples is at least one gap wide *)
  Lemma segment_wide b o t_mid s d : increasing (ob_t b) -> length (ob_data b) = length (ob_t b) -> filter_segment F b o t_mid = Ok s ->
    gaps_at_least (ob_t b) d -> (d <= k_size o * ob_delta_T b t_mid)%Q.
  Proof.
    intros I L H G. destruct (segment_ok b o t_mid s I L H) as (j & trend & (C1 & C2 & C3) & L2 & _). clear H.
    destruct (C3 0) as (A1 & _ & A3); [lia|]. destruct (C3 1) as (B1 & _ & B3); [lia|]. rewrite Nat.add_0_r in A1, A3. rewrite Nat.add_1_r in B1, B3.
    destruct (nth_error (ob_t b) j) as [u|] eqn:U; [|congruence]. destruct (nth_error (ob_t b) (S j)) as [v|] eqn:V; [|congruence].
    assert (X := proj2 (C2 j u U)). assert (Y := proj2 (C2 (S j) v V)). assert (W := G j u v U V).
    destruct X as [X1 X2]; [lia|]. destruct Y as [Y1 Y2]; [lia|]. lra.
  Qed.

  (** ** the loop *)
  Lemma sweep_ok b o tn : forall fuel ts l, sweep F fuel b o tn ts = Ok l ->
    exists cs, centres (fun c => k_alpha o * ob_delta_T b c)%Q ts tn cs /\ length cs = length l /\
      forall k c, nth_error cs k = Some c -> exists s, nth_error l k = Some s /\ filter_segment F b o c = Ok s.
  Proof.
    induction fuel as [|fuel IH]; intros ts l H; cbn [sweep] in H; destruct (Qlt_bool ts tn) eqn:B; try discriminate.
    - apply Ok_inj in H. subst. exists []. apply Qlt_bool_false in B. split; [|split; [reflexivity|intros [|k] c; discriminate]].
      split; [auto|]. split; [intros c; discriminate|]. split; [intros [|k] c c'; discriminate|]. split; [intros c []|intros c; discriminate].
    - apply bind_ok in H; destruct H as (s & Es & H). apply bind_ok in H; destruct H as (r & Er & H). apply Ok_inj in H. subst l.
      apply Qlt_bool_iff in B. destruct (IH _ _ Er) as (cs & (C0 & C1 & C2 & C3 & C4) & Lc & Hc). exists (ts :: cs). split; [|split; [cbn; lia|]].
      + split; [discriminate|]. split; [cbn; congruence|]. split; [|split].
        * intros [|k] c c' A A'; cbn [nth_error] in *; [|eauto]. apply Some_inj in A. subst c. now apply C1.
        * intros c [<-|Hin]; auto.
        * intros c. cbn [length]. rewrite Nat.sub_succ, Nat.sub_0_r. destruct cs as [|c0 cs]; cbn [length nth_error].
          { intros A. apply Some_inj in A. subst c. now apply C0. }
          { cbn [length] in C4. rewrite Nat.sub_succ, Nat.sub_0_r in C4. apply C4. }
      + intros [|k] c A; cbn [nth_error] in *; [apply Some_inj in A; subst; eauto|eauto].
    - apply Ok_inj in H. subst. exists []. apply Qlt_bool_false in B. split; [|split; [reflexivity|intros [|k] c; discriminate]].
      split; [auto|]. split; [intros c; discriminate|]. split; [intros [|k] c c'; discriminate|]. split; [intros c []|intros c; discriminate].
  Qed.

  (** ** termination *)
  Hypothesis fit_ends : forall a m t x, fo_trend F a m t x <> Err OutOfFuel.
  Lemma nf_zip f a b : nf (zip_with f a b).
  Proof. unfold zip_with. destruct (_ =? _); discriminate. Qed.
  Lemma nf_pad l p : nf (pad l p).
  Proof. unfold pad. destruct (_ <? _)%Z; discriminate. Qed.
  Lemma nf_arg l : nf (argmax l).
  Proof. destruct l; discriminate. Qed.
  Lemma nf_pick ch fr sp lo hi : (forall l, nf (ch l)) -> nf (pick ch fr sp lo hi).
  Proof.
    intros H. unfold pick. destruct (where_idx _ _) as [|i idx]; [discriminate|].
    apply nf_bind; [apply nf_gather|]; intros. apply nf_bind; [apply nf_gather|]; intros. apply nf_bind; [apply H|]; intros.
    apply nf_bind; [apply nf_get|]. discriminate.
  Qed.
  Lemma nf_segment b o c : nf (filter_segment F b o c).
  Proof.
    unfold filter_segment. apply nf_bind.
    { unfold make_segment. apply nf_bind; [apply nf_get|]; intros. apply nf_bind; [apply nf_last|]; discriminate. }
    intros [ts ds] _. apply nf_bind; [unfold pn_fit; destruct (existsb _ ts); [discriminate|apply fit_ends]|]. intros trend _. cbv zeta.
    apply nf_bind; [apply nf_zip|]. intros residual _. apply nf_bind; [apply nf_bind; [apply nf_zip|]; intros; apply nf_pad|]. intros windowed _.
    apply nf_bind; [apply nf_pad|]. intros plain _. apply nf_bind; [destruct (_ =? _); discriminate|]. intros _ _.
    apply nf_bind; [apply nf_get|]. intros t1 _. apply nf_bind; [apply nf_get|]. intros t0 _.
    apply nf_bind; [destruct (Qeq_bool _ _); discriminate|]. intros g _.
    assert (RF : forall n d, nf (rfftfreq n d)) by (intros; unfold rfftfreq; destruct (Qeq_bool _ _); discriminate).
    apply nf_bind; [apply RF|]. intros fr _. apply nf_bind.
    { unfold get_fcut. apply nf_bind; [apply nf_pick, nf_arg|]. intros. cbv zeta. apply nf_bind; [apply nf_pick, nf_arg|]. intros.
      apply nf_bind; [apply nf_pick; intros; apply nf_arg|]. discriminate. }
    intros [[fc fe] fs] _. apply nf_bind; [apply RF|]. intros fr' _.
    apply nf_bind; [unfold make_lowpass_mask; cbv zeta; destruct (_ && _)%bool; discriminate|]. intros m _. apply nf_bind; [apply nf_zip|]. discriminate.
  Qed.
  Lemma sweep_ends b o tn d : increasing (ob_t b) -> length (ob_data b) = length (ob_t b) -> gaps_at_least (ob_t b) d -> (0 < d)%Q ->
    (0 < k_alpha o)%Q -> (0 < k_size o)%Q -> forall fuel ts, ((tn - ts) * k_size o <= inject_Z (Z.of_nat fuel) * (k_alpha o * d))%Q ->
    nf (sweep F fuel b o tn ts).
  Proof.
    intros I L G Pd Pa Ps. induction fuel as [|fuel IH]; intros ts B; cbn [sweep]; destruct (Qlt_bool ts tn) eqn:E; try discriminate.
    - exfalso. apply Qlt_bool_iff in E. assert (0 < (tn - ts) * k_size o)%Q by (apply Qmult_lt_0_compat; lra).
      change (inject_Z (Z.of_nat 0)) with 0%Q in B. lra.
    - apply nf_bind; [apply nf_segment|]. intros s Es. apply nf_bind; [|discriminate]. apply IH.
      assert (W := segment_wide b o ts s d I L Es G). rewrite Nat2Z.inj_succ in B. unfold Z.succ in B. rewrite inject_Z_plus in B.
      change (inject_Z 1) with 1%Q in B. assert (k_alpha o * d <= k_alpha o * (k_size o * ob_delta_T b ts))%Q.
      { rewrite !(Qmult_comm (k_alpha o)). apply Qmult_le_compat_r; lra. }
      assert (R1 : ((tn - (ts + k_alpha o * ob_delta_T b ts)) * k_size o == (tn - ts) * k_size o - k_alpha o * (k_size o * ob_delta_T b ts))%Q) by ring.
      rewrite R1. lra.
  Qed.
  (** more passes change nothing *)
  Lemma sweep_more b o tn : forall fuel m ts, nf (sweep F fuel b o tn ts) -> fuel <= m -> sweep F m b o tn ts = sweep F fuel b o tn ts.
  Proof.
    induction fuel as [|fuel IH]; intros m ts N Lm; cbn [sweep] in N |- *; destruct m as [|m]; try lia; cbn [sweep];
      destruct (Qlt_bool ts tn); try reflexivity; [exfalso; now apply N|].
    destruct (filter_segment F b o ts) as [s|e]; [|reflexivity]. cbn [bind] in *.
    rewrite (IH m); [reflexivity| |lia]. intros X. apply N. rewrite X. reflexivity.
  Qed.
  (** a sweep that does not advance never ends *)
  Lemma sweep_stuck b o tn t0 : (k_alpha o == 0)%Q -> (t0 < tn)%Q -> (forall c, (c == t0)%Q -> exists s, filter_segment F b o c = Ok s) ->
    forall fuel ts, (ts == t0)%Q -> sweep F fuel b o tn ts = Err OutOfFuel.
  Proof.
    intros A T S. induction fuel as [|fuel IH]; intros ts E; cbn [sweep];
      (assert (B : Qlt_bool ts tn = true) by (apply Qlt_bool_iff; rewrite E; exact T)); rewrite B; [reflexivity|].
    destruct (S ts E) as (s & Es). rewrite Es. cbn [bind]. rewrite IH; [reflexivity|]. rewrite A. lra.
  Qed.
End Sweep.
