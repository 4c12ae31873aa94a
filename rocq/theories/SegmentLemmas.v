(** Proofs about the short-segment option. *)
From Verif Require Import Base BaseLemmas UtilsModel UtilsSpec SegmentModel SegmentSpec.
Open Scope nat_scope.

Lemma argmin_ok l i : argmin l = Ok i ->
  exists m, nth_error l i = Some m /\ forall k a, nth_error l k = Some a -> (m <= a)%Q.
Proof.
  unfold argmin. intros H. apply argmax_ok in H. destruct H as [m [H1 [H2 _]]].
  rewrite nth_error_map in H1. destruct (nth_error l i) as [x|] eqn:E; [|discriminate].
  cbn in H1. apply Some_inj in H1. subst m. exists x. split; [reflexivity|].
  intros k a Hk. specialize (H2 k (- a)%Q). rewrite nth_error_map, Hk in H2.
  specialize (H2 eq_refl). lra.
Qed.
Lemma nearest_ok l x i : nearest l x = Ok i -> nearest_to l x i.
Proof.
  unfold nearest. intros H. apply argmin_ok in H. destruct H as [m [H1 H2]].
  rewrite nth_error_map in H1. destruct (nth_error l i) as [y|] eqn:E; [|discriminate].
  cbn in H1. apply Some_inj in H1. subst m. exists y. split; [exact E|].
  intros k z Hk. apply (H2 k). now rewrite nth_error_map, Hk.
Qed.
Lemma nearest_total l x : l <> [] -> exists i, nearest l x = Ok i.
Proof. destruct l; [congruence|]. intros _. eexists. reflexivity. Qed.

Lemma four_pi_k_orbit : (four_pi_k == orbit)%Q.
Proof. reflexivity. Qed.
Lemma orbit_pos : (0 < orbit)%Q.
Proof. reflexivity. Qed.
Lemma half_up_ceil N : half_up N (q_ceil (N / 2)).
Proof.
  unfold half_up, q_ceil. generalize (Qceiling_lt (N / 2)) (Qle_ceiling (N / 2)).
  unfold Z.sub. rewrite inject_Z_plus. change (inject_Z (- (1))) with (-1 # 1)%Q. intros; split; lra.
Qed.
Lemma half_up_pos N h : (0 < N)%Q -> half_up N h -> (1 <= inject_Z h)%Q.
Proof.
  intros H [_ H2]. change 1%Q with (inject_Z 1). rewrite <- Zle_Qle.
  assert (0 < inject_Z h)%Q.
  { apply Qlt_le_trans with (N / 2)%Q; [|exact H2]. apply Qlt_shift_div_l; [reflexivity|]. lra. }
  change 0%Q with (inject_Z 0) in H0. rewrite <- Zlt_Qlt in H0. lia.
Qed.

Lemma searchsorted_ok l v : forall k x, nth_error l k = Some x -> k < searchsorted l v -> (x < v)%Q.
Proof.
  intros k x Hk. unfold searchsorted. destruct (find_index _ l) as [i|] eqn:E; intros L.
  - apply find_index_some in E. destruct E as [_ E]. specialize (E k x L Hk). now apply Qle_bool_false in E.
  - assert (E' := find_index_none _ _ E k x Hk). cbn in E'. now apply Qle_bool_false in E'.
Qed.
Lemma searchsorted_ge l v : increasing l -> forall k x, nth_error l k = Some x -> searchsorted l v <= k -> (v <= x)%Q.
Proof.
  intros I k x Hk. unfold searchsorted. destruct (find_index _ l) as [i|] eqn:E; intros L.
  - apply find_index_some in E. destruct E as [[y [E1 E2]] _]. apply Qle_bool_iff in E2.
    destruct (Nat.eq_dec i k) as [->|N]; [congruence|].
    assert (y < x)%Q by (apply (I i k); auto; lia). lra.
  - assert (k < length l) by (apply nth_error_Some; congruence). lia.
Qed.

(** the phase added on the other side for missing orbits *)
Lemma extra_ok N av d : let E := (additional_orbits N av (d / four_pi_k) * four_pi_k)%Q in
  (0 <= E)%Q /\ (N / 2 * orbit - av - d <= E)%Q /\ (E == 0 \/ E == N / 2 * orbit - av - d)%Q.
Proof.
  cbv zeta. unfold additional_orbits.
  set (y := ((1 # 2) * N - av / four_pi_k - d / four_pi_k)%Q).
  assert (Ey : (y * four_pi_k == N / 2 * orbit - av - d)%Q).
  { unfold y. rewrite <- four_pi_k_orbit. field. discriminate. }
  destruct (Qmaxb_spec y 0) as [H1 [H2 H3]].
  assert (P : (0 < four_pi_k)%Q) by reflexivity.
  repeat split.
  - apply Qmult_le_0_compat; lra.
  - rewrite <- Ey. apply Qmult_le_compat_r; lra.
  - destruct H3 as [H3|H3]; rewrite H3; [right; exact Ey|left; lra].
Qed.

Lemma indices_ok N phase : (0 < N)%Q -> increasing phase ->
  forall pl pr s e i j p0 pn h,
    half_up N h ->
    nth_error phase i = Some pl -> nth_error phase j = Some pr -> (pl <= pr)%Q ->
    nth_error phase 0 = Some p0 -> nth_error phase (length phase - 1) = Some pn ->
    segment_indices N phase pl pr = Ok (s, e) ->
    exists b, norm_bound (length phase) e = b /\ s <= i /\ b < length phase /\
      (s = 0 \/ exists p, nth_error phase (s - 1) = Some p /\ (p + inject_Z h * orbit < pl)%Q) /\
      (b = length phase - 1 \/ exists q, nth_error phase b = Some q /\ (pr + inject_Z h * orbit <= q)%Q) /\
      ((s = 0 /\ b = length phase - 1) \/
       exists p q, nth_error phase (s - 1) = Some p /\ nth_error phase b = Some q /\ (N * orbit <= q - p)%Q) /\
      (forall k x, s < k < b -> nth_error phase k = Some x ->
         (pl - inject_Z h * orbit <= x \/ pn - inject_Z h * orbit - N / 2 * orbit <= x)%Q /\
         (x < pr + inject_Z h * orbit \/ x < p0 + inject_Z h * orbit + N / 2 * orbit)%Q) /\
      (forall p1, nth_error phase 1 = Some p1 -> (p1 + inject_Z h * orbit < pl)%Q -> (pr + inject_Z h * orbit <= pn)%Q ->
         forall k x, nth_error phase k = Some x ->
            (s < k /\ k < b <-> (pl - inject_Z h * orbit <= x /\ x < pr + inject_Z h * orbit)%Q)) /\
      (fine_phase phase -> s < i \/ s = 0) /\
      (b = length phase - 1 \/ (j < b /\ (fine_phase phase -> S j < b))).
Proof.
  intros Npos Inc pl pr s e i j p0 pn h Hh Hi Hj LE H0 Hn. unfold segment_indices.
  assert (EH : q_ceil (N / 2) = h).
  { destruct Hh as [A1 A2]. destruct (half_up_ceil N) as [B1 B2].
    assert (L1 : (inject_Z (q_ceil (N / 2)) < inject_Z (h + 1))%Q) by (rewrite inject_Z_plus; change (inject_Z 1) with 1%Q; lra).
    assert (L2 : (inject_Z h < inject_Z (q_ceil (N / 2) + 1))%Q) by (rewrite inject_Z_plus; change (inject_Z 1) with 1%Q; lra).
    rewrite <- Zlt_Qlt in L1, L2. lia. }
  rewrite EH. clear EH.
  set (W' := (inject_Z h * four_pi_k)%Q). set (W := (inject_Z h * orbit)%Q).
  assert (EW : (W' == W)%Q) by reflexivity. clearbody W'.
  assert (WK : (orbit <= W)%Q).
  { unfold W. setoid_replace orbit with (1 * orbit)%Q at 1 by ring. apply Qmult_le_compat_r; [|apply Qlt_le_weak, orbit_pos].
    eapply half_up_pos; eauto. }
  assert (WN : (N / 2 * orbit <= W)%Q).
  { unfold W. apply Qmult_le_compat_r; [apply Hh|apply Qlt_le_weak, orbit_pos]. }
  assert (NN : (N * orbit == 2 * (N / 2 * orbit))%Q) by (field; discriminate).
  set (NK := (N * orbit)%Q) in *. set (HN := (N / 2 * orbit)%Q) in *. clearbody NK W.
  assert (K0 := orbit_pos).
  assert (EX := fun av d => extra_ok N av d). cbv zeta in EX. fold HN in EX. clearbody HN.
  assert (LI : i < length phase) by (apply nth_error_Some; congruence).
  assert (LJ : j < length phase) by (apply nth_error_Some; congruence).
  assert (MON : forall k l x y, nth_error phase k = Some x -> nth_error phase l = Some y -> (x < y)%Q -> k < l).
  { intros k l x y Hk Hl L. destruct (Nat.lt_trichotomy k l) as [C|[->|C]]; [exact C| |].
    - assert (x = y) by congruence. subst. lra.
    - assert (y < x)%Q by (eapply Inc; eauto). lra. }
  assert (MONle : forall k l x y, k <= l -> nth_error phase k = Some x -> nth_error phase l = Some y -> (x <= y)%Q).
  { intros k l x y C Hk Hl. destruct (Nat.eq_dec k l) as [->|]; [assert (x = y) by congruence; subst; lra|].
    apply Qlt_le_weak. apply (Inc k l); auto; lia. }
  set (ss := searchsorted phase (pl - W')).
  assert (S1 := searchsorted_ok phase (pl - W')). fold ss in S1.
  assert (S2 := searchsorted_ge phase (pl - W') Inc). fold ss in S2.
  assert (SI : ss <= i).
  { destruct (Nat.le_gt_cases ss i); auto. specialize (S1 i pl Hi H). lra. }
  assert (exists xr, (if ss - 1 =? 0 then do p1 <- get phase 0;
            Ok (additional_orbits N (pl - p1) ((pr - pl) / four_pi_k)) else Ok 0%Q) = Ok xr /\
            (0 <= xr * four_pi_k)%Q /\
            (ss <= 1 -> (HN - (pl - p0) - (pr - pl) <= xr * four_pi_k)%Q) /\
            (xr * four_pi_k == 0 \/ xr * four_pi_k == HN - (pl - p0) - (pr - pl))%Q) as [xr [-> [X1 [X2 X3]]]].
  { unfold get. rewrite H0. cbn [bind]. destruct (Nat.eqb_spec (ss - 1) 0) as [E|E].
    - eexists. split; [reflexivity|]. destruct (EX (pl - p0)%Q (pr - pl)%Q) as [A [B C]]. auto.
    - exists 0%Q. split; [reflexivity|]. setoid_replace (0 * four_pi_k)%Q with 0%Q by ring.
      split; [lra|]. split; [lia|]. left; lra. }
  cbn [bind]. set (xe := (xr * four_pi_k)%Q) in *. clearbody xe. clear xr.
  destruct (find_index _ phase) as [b|] eqn:F.
  - intros E. apply Ok_inj in E. injection E as <- <-.
    apply find_index_some in F. destruct F as [[q [Q1 Q2]] Q3]. apply Qle_bool_iff in Q2.
    assert (Q3' : forall k x, k < b -> nth_error phase k = Some x -> (x < pr + W' + xe)%Q).
    { intros k x A B. specialize (Q3 k x A B). now apply Qle_bool_false in Q3. }
    exists b. assert (LB : b < length phase) by (apply nth_error_Some; congruence).
    assert (JB : j < b) by (apply (MON j b pr q); auto; lra).
    split. { unfold norm_bound. destruct (Z.leb_spec 0 (Z.of_nat b)); lia. }
    split; [lia|]. split; [exact LB|].
    assert (SP : forall p k, k < ss -> nth_error phase k = Some p -> (p + W < pl)%Q).
    { intros p k A B. specialize (S1 k p B A). lra. }
    assert (EXP : exists p, nth_error phase (ss - 1 - 1) = Some p).
    { destruct (nth_error phase (ss - 1 - 1)) eqn:E; [eauto|]. apply nth_error_None in E. lia. }
    destruct EXP as [p EXP].
    split. { destruct (Nat.le_gt_cases ss 1); [left; lia|]. right. exists p. split; [exact EXP|]. apply (SP p (ss - 1 - 1)); auto. lia. }
    split. { right. exists q. split; [exact Q1|]. lra. }
    split.
    { right. exists p, q. split; [exact EXP|]. split; [exact Q1|].
      destruct (Nat.le_gt_cases ss 1) as [C|C].
      - replace (ss - 1 - 1) with 0 in EXP by lia. assert (p = p0) by congruence. subst p. specialize (X2 C). lra.
      - assert (p + W < pl)%Q by (apply (SP p (ss - 1 - 1)); auto; lia). lra. }
    split.
    { intros k x [A B] Hk. specialize (Q3' k x B Hk). assert (pl - W' <= x)%Q by (apply (S2 k); auto; lia).
      split; [left; lra|]. destruct X3 as [X3|X3]; [left; lra|right; lra]. }
    split.
    { intros p1 P1 L1 L2 k x Hk. assert (1 < ss).
      { destruct (Nat.le_gt_cases ss 1) as [C|C]; [|exact C]. specialize (S2 1 p1 P1 C). lra. }
      assert (X0 : (xe == 0)%Q).
      { destruct X3 as [X3|X3]; [exact X3|]. assert (p0 < p1)%Q by (eapply Inc; [|exact H0|exact P1]; lia). lra. }
      split.
      - intros [A B]. specialize (Q3' k x B Hk). assert (pl - W' <= x)%Q by (apply (S2 k); auto; lia). split; lra.
      - intros [A B]. split.
        + destruct (Nat.le_gt_cases ss k) as [C|C]; [lia|]. specialize (S1 k x Hk C). lra.
        + apply (MON k b x q); auto. lra. }
    split. { intros _. lia. }
    right. split; [exact JB|]. intros FP.
    destruct (Nat.eq_dec b (S j)) as [->|]; [|lia]. specialize (FP j pr q Hj Q1). lra.
  - assert (EL1 : last_of phase = Ok pn).
    { unfold last_of, zget. cbn [Z.leb Z.compare]. replace (Z.of_nat (length phase) + -1)%Z with (Z.of_nat (length phase - 1)) by lia.
      destruct (Z.leb_spec 0 (Z.of_nat (length phase - 1))); [|lia]. rewrite Nat2Z.id. unfold get. now rewrite Hn. }
    rewrite EL1. destruct (length phase) as [|n] eqn:EL; [lia|]. cbn [Nat.sub] in Hn.
    rewrite Nat.sub_0_r in Hn. cbn [bind].
    set (xl := (additional_orbits N (pn - pr) ((pr - pl) / four_pi_k))).
    assert (exists yl, (yl == xl * four_pi_k)%Q /\ (0 <= yl)%Q /\ (HN - (pn - pr) - (pr - pl) <= yl)%Q /\
        (yl == 0 \/ yl == HN - (pn - pr) - (pr - pl))%Q) as [yl [Y0 [Y1 [Y2 Y3]]]].
    { destruct (EX (pn - pr)%Q (pr - pl)%Q) as [A [B C]]. fold xl in A, B, C. exists (xl * four_pi_k)%Q. split; [lra|auto]. }
    assert (NF := find_index_none _ _ F). cbn beta in NF. clear F.
    assert (NF' : forall k x, nth_error phase k = Some x -> (x < pr + W' + xe)%Q).
    { intros k x Hk. specialize (NF k x Hk). now apply Qle_bool_false in NF. } clear NF.
    destruct (find_index _ phase) as [u|] eqn:F.
    2:{ exfalso. assert (NG := find_index_none _ _ F i pl Hi). cbn beta in NG. apply Qle_bool_false in NG. lra. }
    apply find_index_some in F. destruct F as [[q [Q1 Q2]] Q3]. apply Qle_bool_iff in Q2.
    assert (Q3' : forall k x, k < u -> nth_error phase k = Some x -> (x < pl - W - yl)%Q).
    { intros k x A B. specialize (Q3 k x A B). apply Qle_bool_false in Q3. lra. } clear Q3.
    intros E. apply Ok_inj in E. injection E as <- <-.
    exists n. assert (UI : u <= i).
    { destruct (Nat.le_gt_cases u i) as [C|C]; auto. specialize (Q3' i pl C Hi). lra. }
    split. { unfold norm_bound. cbn [Z.leb Z.compare]. lia. }
    split; [exact UI|]. split; [lia|].
    replace (S n - 1) with n by lia.
    assert (EXP : u = 0 \/ exists p, nth_error phase (u - 1) = Some p /\ (p < pl - W - yl)%Q).
    { destruct u as [|u]; [auto|]. right. replace (S u - 1) with u by lia.
      destruct (nth_error phase u) as [p|] eqn:E; [|apply nth_error_None in E; lia].
      exists p. split; [reflexivity|]. apply (Q3' u); auto. }
    split. { destruct EXP as [->|[p [A B]]]; [auto|]. right. exists p. split; [exact A|lra]. }
    split; [auto|].
    split. { destruct EXP as [->|[p [A B]]]; [auto|]. right. exists p, pn. split; [exact A|]. split; [exact Hn|]. lra. }
    split.
    { intros k x [A B] Hk. assert (q <= x)%Q by (eapply (MONle u k); eauto; lia). specialize (NF' k x Hk).
      split; [destruct Y3; [left|right]; lra|]. destruct X3 as [X3|X3]; [left; lra|right; lra]. }
    split.
    { intros p1 P1 L1 L2. exfalso. specialize (NF' n pn Hn).
      assert (p0 < p1)%Q by (eapply Inc; [|exact H0|exact P1]; lia). destruct X3 as [X3|X3]; lra. }
    split.
    { intros FP. destruct (Nat.eq_dec u i) as [->|]; [|lia]. destruct i as [|i]; [auto|]. exfalso.
      destruct (nth_error phase i) as [p|] eqn:E; [|apply nth_error_None in E; lia].
      specialize (FP i p pl E Hi). specialize (Q3' i p ltac:(lia) E). lra. }
    auto.
Qed.

Lemma zslice_nat {A} (l : list A) a e n : length l = n -> zslice l (Z.of_nat a) e = slice l a (norm_bound n e).
Proof.
  intros <-. unfold zslice. f_equal. unfold norm_bound. destruct (Z.leb_spec 0 (Z.of_nat a)); lia.
Qed.
Lemma cut_part w n s e b : samples_of w n -> norm_bound n e = b -> b <= n -> part_of w s b (cut_wave w s e).
Proof.
  intros [L1 [L2 [L3 L4]]] <- LE. unfold part_of, samples_of, cut_wave. cbn [w_t w_amp w_phase w_omega].
  rewrite !(zslice_nat _ s e n) by assumption. rewrite !slice_length, L1, L2, L3, L4.
  split; [repeat split; lia|]. intros k Hk. rewrite !nth_error_slice.
  destruct (Nat.ltb_spec k (norm_bound n e - s)); [auto|lia].
Qed.

(** the nearest sample brackets the time *)
Lemma nearest_left t x i y : increasing t -> nearest_to t x (S i) -> nth_error t i = Some y -> (y <= x)%Q.
Proof.
  intros I [z [Hz H]] Hy. specialize (H i y Hy). assert (y < z)%Q by (eapply I; [|exact Hy|exact Hz]; lia).
  destruct (Qlt_le_dec x y) as [C|C]; [|exact C]. exfalso.
  rewrite (Qabs_pos (z - x)), (Qabs_pos (y - x)) in H by lra. lra.
Qed.
Lemma nearest_right t x i y : increasing t -> nearest_to t x i -> nth_error t (S i) = Some y -> (x <= y)%Q.
Proof.
  intros I [z [Hz H]] Hy. specialize (H (S i) y Hy). assert (z < y)%Q by (eapply I; [|exact Hz|exact Hy]; lia).
  destruct (Qlt_le_dec y x) as [C|C]; [|exact C]. exfalso.
  rewrite (Qabs_neg (z - x)), (Qabs_neg (y - x)) in H by lra. lra.
Qed.
(** nearer times have nearest samples in the same order *)
Lemma nearest_mono t x y i j : increasing t -> (x <= y)%Q -> nearest t x = Ok i -> nearest t y = Ok j -> i <= j.
Proof.
  intros I L Hi Hj. destruct (Nat.le_gt_cases i j) as [C|C]; [exact C|]. exfalso.
  assert (N1 := nearest_ok _ _ _ Hi). destruct N1 as [a [A1 A2]].
  assert (N2 := nearest_ok _ _ _ Hj). destruct N2 as [b [B1 B2]].
  specialize (A2 j b B1). specialize (B2 i a A1). assert (BA : (b < a)%Q) by (eapply I; eauto).
  (* x is nearer a than b, so x >= (a+b)/2; y is nearer b than a, so y <= (a+b)/2: a tie, and ties go to the first *)
  assert (X : (a + b <= 2 * x)%Q).
  { destruct (Qlt_le_dec (2 * x) (a + b)) as [D|D]; [|exact D]. exfalso.
    destruct (Qlt_le_dec x b) as [U|U].
    - rewrite (Qabs_pos (a - x)), (Qabs_pos (b - x)) in A2 by lra. lra.
    - rewrite (Qabs_pos (a - x)), (Qabs_neg (b - x)) in A2 by lra. lra. }
  assert (TIE : (Qabs (b - x) == Qabs (a - x))%Q).
  { destruct (Qlt_le_dec (a + b) (2 * y)) as [D|D].
    - exfalso. destruct (Qlt_le_dec a y) as [U|U].
      + rewrite (Qabs_neg (a - y)), (Qabs_neg (b - y)) in B2 by lra. lra.
      + rewrite (Qabs_pos (a - y)), (Qabs_neg (b - y)) in B2 by lra. lra.
    - rewrite (Qabs_pos (a - x)), (Qabs_neg (b - x)) by lra. lra. }
  unfold nearest, argmin in Hi. apply argmax_ok in Hi. destruct Hi as [m [M1 [_ M3]]].
  rewrite !nth_error_map, A1 in M1. cbn [option_map] in M1. apply Some_inj in M1. subst m.
  specialize (M3 j (- Qabs (b - x))%Q C). rewrite !nth_error_map, B1 in M3. specialize (M3 eq_refl). lra.
Qed.

Theorem segments_ok sec N w n is_time ref w' h :
  (0 < N)%Q -> half_up N h -> samples_of w n -> increasing (w_t w) -> increasing (w_phase w) ->
  segments sec N w is_time ref = Ok w' ->
  forall tl tr, reference_bounds sec w is_time ref = Ok (tl, tr) -> (tl <= tr)%Q ->
  exists i j pl pr p0 pn a b,
    nearest_to (w_t w) tl i /\ nearest_to (w_t w) tr j /\ i <= j /\
    nth_error (w_phase w) i = Some pl /\ nth_error (w_phase w) j = Some pr /\
    nth_error (w_phase w) 0 = Some p0 /\ nth_error (w_phase w) (n - 1) = Some pn /\
    part_of w a b w' /\ a <= i /\ b < n /\
    (a = 0 \/ exists p, nth_error (w_phase w) (a - 1) = Some p /\ (p + inject_Z h * orbit < pl)%Q) /\
    (b = n - 1 \/ exists q, nth_error (w_phase w) b = Some q /\ (pr + inject_Z h * orbit <= q)%Q) /\
    ((a = 0 /\ b = n - 1) \/
     exists p q, nth_error (w_phase w) (a - 1) = Some p /\ nth_error (w_phase w) b = Some q /\ (N * orbit <= q - p)%Q) /\
    (forall k x, a < k < b -> nth_error (w_phase w) k = Some x ->
       (pl - inject_Z h * orbit <= x \/ pn - inject_Z h * orbit - N / 2 * orbit <= x)%Q /\
       (x < pr + inject_Z h * orbit \/ x < p0 + inject_Z h * orbit + N / 2 * orbit)%Q) /\
    (forall p1, nth_error (w_phase w) 1 = Some p1 -> (p1 + inject_Z h * orbit < pl)%Q -> (pr + inject_Z h * orbit <= pn)%Q ->
       forall k x, nth_error (w_phase w) k = Some x ->
          (a < k /\ k < b <-> (pl - inject_Z h * orbit <= x /\ x < pr + inject_Z h * orbit)%Q)) /\
    (fine_phase (w_phase w) -> a < i \/ a = 0) /\
    (b = n - 1 \/ (j < b /\ (fine_phase (w_phase w) -> S j < b))).
Proof.
  intros Np Hh Hs It Ip H tl tr Hb LE. unfold segments in H. rewrite Hb in H. cbn [bind fst snd] in H.
  unfold phase_bound in H. destruct (nearest (w_t w) tl) as [i|] eqn:Ni; [|discriminate H].
  cbn [bind] in H. destruct (get (w_phase w) i) as [pl|] eqn:Gi; [|discriminate H].
  cbn [bind] in H. destruct (nearest (w_t w) tr) as [j|] eqn:Nj; [|discriminate H].
  cbn [bind] in H. destruct (get (w_phase w) j) as [pr|] eqn:Gj; [|discriminate H].
  cbn [bind] in H. destruct (segment_indices N (w_phase w) pl pr) as [[s e]|] eqn:SI; [|discriminate H].
  cbn [bind fst snd] in H. apply Ok_inj in H. subst w'.
  apply get_ok in Gi. apply get_ok in Gj.
  assert (IJ := nearest_mono _ _ _ _ _ It LE Ni Nj).
  assert (LI : i < length (w_phase w)) by (apply nth_error_Some; congruence).
  assert (PL : (pl <= pr)%Q).
  { destruct (Nat.eq_dec i j) as [->|]; [assert (pl = pr) by congruence; subst; lra|].
    apply Qlt_le_weak. apply (Ip i j); auto; lia. }
  destruct (nth_error (w_phase w) 0) as [p0|] eqn:P0; [|apply nth_error_None in P0; lia].
  destruct (nth_error (w_phase w) (length (w_phase w) - 1)) as [pn|] eqn:Pn; [|apply nth_error_None in Pn; lia].
  destruct (indices_ok N (w_phase w) Np Ip pl pr s e i j p0 pn h Hh Gi Gj PL P0 Pn SI)
    as [b [B1 [B2 [B3 [B4 [B5 [B6 [B7 [B8 [B9 B10]]]]]]]]]].
  assert (EL : length (w_phase w) = n) by apply Hs. rewrite EL in *.
  exists i, j, pl, pr, p0, pn, s, b.
  split; [now apply nearest_ok|]. split; [now apply nearest_ok|]. split; [exact IJ|].
  do 4 (split; [first [assumption|reflexivity]|]).
  split; [eapply cut_part; eauto; lia|].
  split; [exact B2|]. split; [exact B3|]. split; [exact B4|]. split; [exact B5|]. split; [exact B6|].
  split; [exact B7|]. split; [exact B8|]. split; [exact B9|]. exact B10.
Qed.

(** every time between the first and the last reference time is inside the segment, up to the last sample *)
Theorem segments_cover sec N w n is_time ref w' :
  (0 < N)%Q -> samples_of w n -> 2 <= n ->
  increasing (w_t w) -> increasing (w_phase w) -> fine_phase (w_phase w) ->
  segments sec N w is_time ref = Ok w' ->
  forall tl tr, reference_bounds sec w is_time ref = Ok (tl, tr) -> (tl <= tr)%Q ->
  (exists t0, nth_error (w_t w) 0 = Some t0 /\ (t0 <= tl)%Q) ->
  forall r, (tl <= r <= tr)%Q ->
  (exists x, nth_error (w_t w') 0 = Some x /\ (x <= r)%Q) /\
  ((exists y, nth_error (w_t w') (length (w_t w') - 1) = Some y /\ (r <= y)%Q) \/
   (exists y, nth_error (w_t w) (n - 2) = Some y /\ (y < r)%Q)).
Proof.
  intros Np Hs N2 It Ip FP H tl tr Hb LE [t0 [T0 T1]] r [R1 R2].
  destruct (segments_ok sec N w n is_time ref w' _ Np (half_up_ceil N) Hs It Ip H tl tr Hb LE)
    as [i [j [pl [pr [p0 [pn [a [b [Ni [Nj [IJ [Gi [Gj [_ [_ [PO [AI [BN [_ [_ [_ [_ [_ [A9 A10]]]]]]]]]]]]]]]]]]]]]]]].
  specialize (A9 FP).
  assert (LJ : j < n) by (destruct Hs as [_ [_ [<- _]]]; apply nth_error_Some; congruence).
  destruct PO as [[L1 _] PO]. assert (LT : length (w_t w) = n) by apply Hs.
  assert (C : a < b) by lia.
  split.
  - destruct (PO 0 ltac:(lia)) as [E _]. rewrite Nat.add_0_r in E. rewrite E.
    destruct A9 as [A9| ->]; [|exists t0; split; [exact T0|lra]].
    destruct (nth_error (w_t w) a) as [x|] eqn:X; [|apply nth_error_None in X; lia].
    exists x. split; [reflexivity|]. destruct i as [|i]; [lia|].
    destruct (nth_error (w_t w) i) as [y|] eqn:Y; [|apply nth_error_None in Y; lia].
    assert (YX := nearest_left _ _ _ _ It Ni Y).
    destruct (Nat.eq_dec a i) as [->|]; [assert (x = y) by congruence; subst; lra|].
    assert (x < y)%Q by (apply (It a i); auto; lia). lra.
  - rewrite L1. destruct (PO (b - a - 1) ltac:(lia)) as [E _].
    replace (a + (b - a - 1)) with (b - 1) in E by lia. rewrite E.
    destruct (nth_error (w_t w) (b - 1)) as [x|] eqn:X; [|apply nth_error_None in X; lia].
    destruct A10 as [->|[A1 A2]].
    + replace (n - 1 - 1) with (n - 2) in X by lia. rewrite X.
      destruct (Qlt_le_dec x r); [right; eauto|left; eauto].
    + left. exists x. split; [reflexivity|]. specialize (A2 FP).
      destruct (nth_error (w_t w) (S j)) as [y|] eqn:Y; [|apply nth_error_None in Y; lia].
      assert (YX := nearest_right _ _ _ _ It Nj Y).
      destruct (Nat.eq_dec (S j) (b - 1)) as [E'|]; [rewrite E' in Y; assert (x = y) by congruence; subst; lra|].
      assert (y < x)%Q by (apply (It (S j) (b - 1)); auto; lia). lra.
Qed.

(** the end of the segment is never the end of the data *)
Theorem segments_last sec N w n is_time ref w' tn :
  (0 < N)%Q -> samples_of w n -> increasing (w_t w) -> increasing (w_phase w) ->
  segments sec N w is_time ref = Ok w' ->
  (exists tl tr, reference_bounds sec w is_time ref = Ok (tl, tr) /\ (tl <= tr)%Q) ->
  nth_error (w_t w) (n - 1) = Some tn -> forall x, In x (w_t w') -> (x < tn)%Q.
Proof.
  intros Np Hs It Ip H [tl [tr [Hb LE]]] Hn x Hx.
  destruct (segments_ok sec N w n is_time ref w' _ Np (half_up_ceil N) Hs It Ip H tl tr Hb LE)
    as [i [j [pl [pr [p0 [pn [a [b [_ [_ [_ [_ [_ [_ [_ [PO [_ [BN _]]]]]]]]]]]]]]]]]].
  destruct PO as [[L1 _] PO]. apply In_nth_error in Hx. destruct Hx as [k Hk].
  assert (k < b - a) by (rewrite <- L1; apply nth_error_Some; congruence).
  destruct (PO k H0) as [E _]. rewrite E in Hk. apply (It (a + k) (n - 1)); auto. lia.
Qed.

Theorem segments_total sec N w n ref : samples_of w n -> 1 <= n -> ref <> [] -> exists w', segments sec N w true ref = Ok w'.
Proof.
  intros Hs Hn Hr. assert (LT : length (w_t w) = n) by apply Hs. assert (LP : length (w_phase w) = n) by apply Hs.
  unfold segments, reference_bounds. destruct ref as [|r0 ref]; [congruence|]. unfold get at 1. cbn [nth_error bind].
  destruct (last_of_nonempty (r0 :: ref)) as [rl ->]; [discriminate|]. cbn [bind fst snd].
  assert (PB : forall x, exists y, phase_bound w x = Ok y).
  { intros x. unfold phase_bound. destruct (nearest_total (w_t w) x) as [i Hi]; [intros E; rewrite E in LT; cbn in LT; lia|].
    rewrite Hi. cbn [bind]. destruct (nearest_ok _ _ _ Hi) as [y [Hy _]].
    assert (i < n) by (rewrite <- LT; apply nth_error_Some; congruence).
    unfold get. destruct (nth_error (w_phase w) i) as [z|] eqn:E; [eauto|]. apply nth_error_None in E. lia. }
  destruct (PB r0) as [pl ->]. destruct (PB rl) as [pr ->]. cbn [bind].
  assert (exists se, segment_indices N (w_phase w) pl pr = Ok se) as [se ->]; [|cbn [bind]; eauto].
  unfold segment_indices. unfold get at 1. destruct (nth_error (w_phase w) 0) as [p0|] eqn:E; [|apply nth_error_None in E; lia].
  cbn [bind].
  destruct (last_of_nonempty (w_phase w)) as [pn ->]; [intros E'; rewrite E' in LP; cbn in LP; lia|].
  destruct (_ =? 0); cbn [bind]; destruct (find_index _ _); eauto.
Qed.

Lemma every_from_in {A} step (l : list A) : forall k x, In x (every_from step k l) -> In x l.
Proof.
  induction l as [|a l IH]; intros k x; cbn [every_from]; [auto|].
  destruct k as [|k]; cbn [In]; intros H; [destruct H; [auto|]|]; right; eapply IH; eauto.
Qed.
Lemma slice_in {A} (l : list A) a b x : In x (slice l a b) -> In x l.
Proof.
  intros H. apply In_nth_error in H. destruct H as [k H]. rewrite nth_error_slice in H.
  destruct (k <? b - a); [|discriminate]. eapply nth_error_In; eauto.
Qed.
(** the approximate reference time is one of the sample times *)
Theorem approximate_in sec w f t : approximate_tref sec w f = Ok t -> In t (w_t w).
Proof.
  unfold approximate_tref. intros H. inv_bind H. inv_bind H. inv_bind H. inv_bind H. inv_bind H.
  apply get_ok in H. apply nth_error_In in H. apply every_from_in in H. eapply slice_in. exact H.
Qed.

Theorem use_segment_none sec level w is_time ref :
  use_segment sec level None w is_time ref = ([], Ok w) /\ use_segment sec level (Some 0%Q) w is_time ref = ([], Ok w).
Proof. split; reflexivity. Qed.
Theorem use_segment_short sec level N w is_time ref p0 pn :
  ~ (N == 0)%Q -> nth_error (w_phase w) 0 = Some p0 -> nth_error (w_phase w) (length (w_phase w) - 1) = Some pn ->
  ((pn - p0) / (4 * np_pi) < N)%Q -> level = (-1)%Z \/ level = 0%Z \/ level = 1%Z ->
  snd (use_segment sec level (Some N) w is_time ref) = Ok w.
Proof.
  intros HN H0 Hn L Hl. unfold use_segment. destruct (Qeq_bool N 0) eqn:E; [apply Qeq_bool_iff in E; contradiction|].
  assert (length (w_phase w) <> 0) by (destruct (w_phase w); [discriminate|cbn; lia]).
  assert (EL : last_of (w_phase w) = Ok pn).
  { destruct (last_of_nonempty (w_phase w)) as [z Hz]; [intros E'; rewrite E' in H0; discriminate|].
    assert (Hz' := last_of_nth _ _ Hz). destruct Hz' as [Hz' _]. congruence. }
  rewrite EL. unfold get. rewrite H0. unfold lift, lbind.
  destruct (Qle_bool N ((pn - p0) / (4 * np_pi))) eqn:E2; [apply Qle_bool_iff in E2; lra|]. cbn [fst snd]. rewrite E2.
  destruct Hl as [-> |[-> | ->]]; reflexivity.
Qed.
Theorem use_segment_long sec level N w is_time ref p0 pn :
  ~ (N == 0)%Q -> nth_error (w_phase w) 0 = Some p0 -> nth_error (w_phase w) (length (w_phase w) - 1) = Some pn ->
  (N <= (pn - p0) / (4 * np_pi))%Q ->
  snd (use_segment sec level (Some N) w is_time ref) = segments sec N w is_time ref.
Proof.
  intros HN H0 Hn L. unfold use_segment. destruct (Qeq_bool N 0) eqn:E; [apply Qeq_bool_iff in E; contradiction|].
  assert (EL : last_of (w_phase w) = Ok pn).
  { destruct (last_of_nonempty (w_phase w)) as [z Hz]; [intros E'; rewrite E' in H0; discriminate|].
    assert (Hz' := last_of_nth _ _ Hz). destruct Hz' as [Hz' _]. congruence. }
  rewrite EL. unfold get. rewrite H0. unfold lift, lbind.
  destruct (Qle_bool N ((pn - p0) / (4 * np_pi))) eqn:E2; [|apply Qle_bool_false in E2; lra]. cbn [fst snd]. rewrite E2.
  destruct (segments _ _ _ _ _); reflexivity.
Qed.

(** ** the time assigned to a reference frequency *)
Lemma every_nth {A} step (l : list A) : 1 <= step -> forall k q, nth_error (every_from step k l) q = nth_error l (k + q * step).
Proof.
  intros Hs. induction l as [|x l IH]; intros k q; cbn [every_from].
  - destruct q; destruct (k + _); reflexivity.
  - destruct k as [|k].
    + destruct q as [|q]; [reflexivity|]. cbn [nth_error]. rewrite IH. replace (0 + S q * step) with (S (step - 1 + q * step)) by lia.
      reflexivity.
    + rewrite IH. reflexivity.
Qed.
Lemma thinned_every t l r step : 1 <= step -> thinned t l r step (every step (slice t l r)).
Proof.
  intros Hs k. unfold every. rewrite every_nth by exact Hs. rewrite nth_error_slice. cbn [Nat.add].
  destruct (Nat.ltb_spec (k * step) (r - l)); destruct (Nat.ltb_spec (l + k * step) r); try lia; reflexivity.
Qed.
Lemma sorted_head a r : StronglySorted lt (a :: r) -> forall k, In k (a :: r) -> a <= k.
Proof.
  intros H k [->|Hk]; [lia|]. inversion H as [|? ? _ F]; subst. rewrite Forall_forall in F. specialize (F _ Hk). lia.
Qed.
Lemma where_first p P (l : list Q) i : (forall x, p x = true <-> P x) -> get (where_idx p l) 0 = Ok i -> first_with P l i.
Proof.
  intros Hp H. apply get_ok in H. assert (S := where_idx_sorted p l). destruct (where_idx p l) as [|a r] eqn:E; [discriminate|].
  injection H as ->. split.
  - assert (I : In i (where_idx p l)) by (rewrite E; left; reflexivity). apply where_idx_in in I.
    destruct I as (x & H1 & H2). exists x. rewrite <- Hp. auto.
  - intros k y Hy Py. apply (sorted_head i r S). rewrite <- E. apply where_idx_in. exists y. rewrite Hp. auto.
Qed.
Lemma sorted_last (l : list nat) a : StronglySorted lt (l ++ [a]) -> forall k, In k (l ++ [a]) -> k <= a.
Proof.
  induction l as [|b l IH]; cbn [app]; intros H k I.
  - destruct I as [->|[]]. lia.
  - inversion H as [|? ? H1 F]; subst. destruct I as [->|I]; [|apply IH; auto].
    rewrite Forall_forall in F. assert (k < a); [|lia]. apply F. apply in_or_app. right. left. reflexivity.
Qed.
Lemma where_last p P (l : list Q) i : (forall x, p x = true <-> P x) -> last_of (where_idx p l) = Ok i -> last_with P l i.
Proof.
  intros Hp H. apply last_of_inv in H. destruct H as [l' E]. assert (S := where_idx_sorted p l). rewrite E in S. split.
  - assert (I : In i (where_idx p l)) by (rewrite E; apply in_or_app; right; left; reflexivity). apply where_idx_in in I.
    destruct I as (x & H1 & H2). exists x. rewrite <- Hp. auto.
  - intros k y Hy Py. apply (sorted_last l' i S). rewrite <- E. apply where_idx_in. exists y. rewrite Hp. auto.
Qed.
Lemma where_none p (l : list Q) : where_idx p l = [] -> forall y, In y l -> p y = false.
Proof.
  intros E y I. apply In_nth_error in I. destruct I as [k Hk]. destruct (p y) eqn:Ep; [|reflexivity].
  assert (In k (where_idx p l)) by (apply where_idx_in; eauto). rewrite E in H. destruct H.
Qed.
Lemma where_two v (l : list Q) : 1 <? length (where_idx (fun x => Qle_bool v x) l) = true <-> two_beyond l v.
Proof.
  set (p := fun x => Qle_bool v x). rewrite Nat.ltb_lt. assert (S := where_idx_sorted p l). split.
  - intros H. destruct (where_idx p l) as [|a [|b r]] eqn:E; cbn [length] in H; try lia.
    assert (Ia : In a (where_idx p l)) by (rewrite E; left; reflexivity).
    assert (Ib : In b (where_idx p l)) by (rewrite E; right; left; reflexivity).
    apply where_idx_in in Ia, Ib. destruct Ia as (x & Hx & Px), Ib as (y & Hy & Py). unfold p in Px, Py.
    rewrite Qle_bool_iff in Px, Py. exists a, b, x, y. repeat split; auto.
    inversion S as [|? ? _ F]; subst. rewrite Forall_forall in F. apply F. left. reflexivity.
  - intros (k & k' & y & y' & L & H1 & H2 & P1 & P2).
    assert (I1 : @In nat k (where_idx p l)) by (apply where_idx_in; exists y; split; [auto|apply Qle_bool_iff; exact P1]).
    assert (I2 : In k' (where_idx p l)) by (apply where_idx_in; exists y'; split; [auto|apply Qle_bool_iff; exact P2]).
    destruct (where_idx p l) as [|a [|b r]]; cbn [length]; [destruct I1| |lia].
    destruct I1 as [<-|[]], I2 as [<-|[]]. lia.
Qed.
Lemma edge_ok phase v o : window_edge phase v o
  (let li := where_idx (fun x => Qle_bool v x) phase in if 1 <? length li then hd 0 li else o).
Proof.
  cbv zeta. split.
  - intros T. apply where_two in T. rewrite T. apply (where_first (fun x => Qle_bool v x)); [intros x; apply Qle_bool_iff|].
    apply Nat.ltb_lt in T. destruct (where_idx _ _); cbn in *; [lia|reflexivity].
  - intros T. destruct (1 <? _) eqn:E; [|reflexivity]. apply where_two in E. contradiction.
Qed.
Lemma bracket_ok omega x lr : 
  match where_idx (fun y => Qle_bool y x) omega with
  | [] => do l <- get (where_idx (fun y => Qle_bool x y) omega) 0; Ok (l, l)
  | _ => match where_idx (fun y => Qle_bool x y) omega with
         | [] => do r <- last_of (where_idx (fun y => Qle_bool y x) omega); Ok (r, r)
         | _ => do l <- get (where_idx (fun y => Qle_bool x y) omega) 0;
                do r <- last_of (where_idx (fun y => Qle_bool y x) omega); Ok (l, r)
         end
  end = Ok lr -> bracket omega x (fst lr) (snd lr).
Proof.
  assert (F := fun i => where_first (fun y => Qle_bool x y) (fun y => x <= y)%Q omega i (fun y => Qle_bool_iff x y)).
  assert (L := fun i => where_last (fun y => Qle_bool y x) (fun y => y <= x)%Q omega i (fun y => Qle_bool_iff y x)).
  assert (NF := where_none (fun y => Qle_bool x y) omega). assert (NL := where_none (fun y => Qle_bool y x) omega).
  destruct (where_idx (fun y => Qle_bool y x) omega) as [|r0 rr] eqn:ER.
  - intros H. inv_bind H. apply Ok_inj in H. subst lr. right. left. cbn [fst snd]. split; [auto|]. split; [reflexivity|].
    intros y I. apply Qle_bool_false. apply NL; auto.
  - destruct (where_idx (fun y => Qle_bool x y) omega) as [|l0 ll] eqn:EL.
    + intros H. inv_bind H. apply Ok_inj in H. subst lr. right. right. cbn [fst snd]. split; [auto|]. split; [reflexivity|].
      intros y I. apply Qle_bool_false. apply NF; auto.
    + intros H. inv_bind H. inv_bind H. apply Ok_inj in H. subst lr. left. cbn [fst snd]. auto.
Qed.

Theorem approximate_ok : forall sec w n f t, samples_of w n -> approximate_tref sec w f = Ok t ->
  exists i j pi pj l r step ts ws m k,
    bracket (w_omega w) (2 * np_pi * f) i j /\ nth_error (w_phase w) i = Some pi /\ nth_error (w_phase w) j = Some pj /\
    ((5 <= (pj - pi) / (4 * np_pi))%Q -> l = i /\ r = j) /\
    (((pj - pi) / (4 * np_pi) < 5)%Q ->
       window_edge (w_phase w) (pi - (5 # 2) * 4 * np_pi) 0 l /\ window_edge (w_phase w) (pj + (5 # 2) * 4 * np_pi) (n - 1) r) /\
    1 <= step /\ thinned (w_t w) l r step ts /\ thinned (w_omega w) l r step ws /\
    sec ts ws = Ok m /\ nearest_to m (2 * np_pi * f) k /\ nth_error ts k = Some t.
Proof.
  intros sec w n f t (N1 & N2 & N3 & N4). unfold approximate_tref. intros H.
  apply bind_ok in H. destruct H as (lr & Elr & H). apply bracket_ok in Elr.
  apply bind_ok in H. destruct H as (pl & Epl & H). apply bind_ok in H. destruct H as (pr & Epr & H).
  apply get_ok in Epl, Epr. cbv zeta in H.
  set (lz := if Qlt_bool ((pr - pl) / (4 * np_pi)) 5 then _ else _) in H.
  set (lv := length (zslice (w_t w) (Z.of_nat (fst lz)) (snd lz))) in H.
  set (step := if 1000 <=? lv then lv / 1000 else 1) in H.
  assert (Hstep : 1 <= step).
  { unfold step. destruct (Nat.leb_spec 1000 lv); [|lia]. apply Nat.div_le_lower_bound; lia. }
  rewrite (zslice_nat (w_t w) (fst lz) (snd lz) n N1), (zslice_nat (w_omega w) (fst lz) (snd lz) n N4) in H.
  apply bind_ok in H. destruct H as (m & Em & H). apply bind_ok in H. destruct H as (k & Ek & H).
  apply nearest_ok in Ek. apply get_ok in H.
  exists (fst lr), (snd lr), pl, pr, (fst lz), (norm_bound n (snd lz)), step. eexists. eexists. exists m, k.
  split; [exact Elr|]. split; [exact Epl|]. split; [exact Epr|].
  split; [|split].
  - intros L. unfold lz. destruct (Qlt_bool _ 5) eqn:E; [apply Qlt_bool_iff in E; lra|]. cbn [fst snd].
    split; [reflexivity|]. unfold norm_bound. destruct (Z.leb_spec 0 (Z.of_nat (snd lr))); lia.
  - intros L. unfold lz. destruct (Qlt_bool _ 5) eqn:E; [|apply Qlt_bool_false in E; lra]. cbn [fst snd].
    split; [exact (edge_ok _ _ 0)|].
    assert (G := edge_ok (w_phase w) (pr + (5 # 2) * 4 * np_pi) (n - 1)). cbv zeta in G.
    set (ri := where_idx (fun x => Qle_bool (pr + (5 # 2) * 4 * np_pi) x) (w_phase w)) in *. clearbody ri.
    clear - G. destruct (1 <? length ri).
    + replace (norm_bound n (Z.of_nat (hd 0 ri))) with (hd 0 ri); [exact G|].
      unfold norm_bound. destruct (Z.leb_spec 0 (Z.of_nat (hd 0 ri))); lia.
    + replace (norm_bound n (-1)) with (n - 1) by (unfold norm_bound; change (0 <=? -1)%Z with false; cbv iota; lia). exact G.
  - split; [exact Hstep|]. split; [apply thinned_every; exact Hstep|]. split; [apply thinned_every; exact Hstep|].
    split; [exact Em|]. split; [exact Ek|exact H].
Qed.
Theorem frequency_bounds : forall sec w ref a b f0 fn, reference_bounds sec w false ref = Ok (a, b) ->
  hd_error ref = Some f0 -> nth_error ref (length ref - 1) = Some fn ->
  approximate_tref sec w f0 = Ok a /\ approximate_tref sec w fn = Ok b.
Proof.
  intros sec w ref a b f0 fn H H0 Hn. unfold reference_bounds in H. destruct ref as [|r0 ref]; [discriminate|].
  injection H0 as ->. cbn [get nth_error bind] in H. apply bind_ok in H. destruct H as (x & Ex & H).
  destruct ref as [|r1 ref].
  - cbn in Hn. injection Hn as <-. cbn in H. apply Ok_inj in H. injection H as <- <-. auto.
  - change (1 <? length (f0 :: r1 :: ref)) with true in H. cbv iota in H.
    apply bind_ok in H. destruct H as (g & Eg & H). apply last_of_nth in Eg. destruct Eg as [Eg _]. rewrite Hn in Eg.
    injection Eg as <-. apply bind_ok in H. destruct H as (y & Ey & H). apply Ok_inj in H. injection H as <- <-. auto.
Qed.

(** ** the forms used in Props_Segment.v *)
Lemma segment_shape : forall sec N h w n is_time ref w' tl tr,
  (0 < N)%Q -> half_up N h -> samples_of w n -> increasing (w_t w) -> increasing (w_phase w) ->
  segments sec N w is_time ref = Ok w' ->
  reference_bounds sec w is_time ref = Ok (tl, tr) -> (tl <= tr)%Q ->
  exists i j pl pr p0 pn a b,
    nearest_to (w_t w) tl i /\ nearest_to (w_t w) tr j /\ i <= j /\
    nth_error (w_phase w) i = Some pl /\ nth_error (w_phase w) j = Some pr /\
    nth_error (w_phase w) 0 = Some p0 /\ nth_error (w_phase w) (n - 1) = Some pn /\
    part_of w a b w' /\ a <= i /\ b < n /\
    (a = 0 \/ exists p, nth_error (w_phase w) (a - 1) = Some p /\ (p + inject_Z h * orbit < pl)%Q) /\
    (b = n - 1 \/ exists q, nth_error (w_phase w) b = Some q /\ (pr + inject_Z h * orbit <= q)%Q) /\
    ((a = 0 /\ b = n - 1) \/
     exists p q, nth_error (w_phase w) (a - 1) = Some p /\ nth_error (w_phase w) b = Some q /\ (N * orbit <= q - p)%Q) /\
    (forall k x, a < k < b -> nth_error (w_phase w) k = Some x ->
       (pl - inject_Z h * orbit <= x \/ pn - inject_Z h * orbit - N / 2 * orbit <= x)%Q /\
       (x < pr + inject_Z h * orbit \/ x < p0 + inject_Z h * orbit + N / 2 * orbit)%Q) /\
    (forall p1, nth_error (w_phase w) 1 = Some p1 -> (p1 + inject_Z h * orbit < pl)%Q -> (pr + inject_Z h * orbit <= pn)%Q ->
       forall k x, nth_error (w_phase w) k = Some x ->
          (a < k /\ k < b <-> (pl - inject_Z h * orbit <= x /\ x < pr + inject_Z h * orbit)%Q)).
Proof.
  intros sec N h w n is_time ref w' tl tr H1 H2 H3 H4 H5 H6 H7 H8.
  destruct (segments_ok sec N w n is_time ref w' h H1 H2 H3 H4 H5 H6 tl tr H7 H8)
    as [i [j [pl [pr [p0 [pn [a [b K]]]]]]]].
  exists i, j, pl, pr, p0, pn, a, b. clear - K. tauto.
Qed.
Lemma time_bounds sec w ref tl tr : hd_error ref = Some tl -> nth_error ref (length ref - 1) = Some tr ->
  reference_bounds sec w true ref = Ok (tl, tr).
Proof.
  intros H1 H2. unfold reference_bounds. destruct ref as [|x r]; [discriminate|]. cbn in H1. apply Some_inj in H1. subst x.
  unfold get. cbn [nth_error bind]. destruct (last_of_nonempty (tl :: r)) as [y Hy]; [discriminate|]. rewrite Hy.
  apply last_of_nth in Hy. cbn [bind]. f_equal. f_equal. destruct Hy; congruence.
Qed.
Lemma time_cover : forall sec N w n ref w' tl tr t0,
  (0 < N)%Q -> samples_of w n -> 2 <= n ->
  increasing (w_t w) -> increasing (w_phase w) -> fine_phase (w_phase w) ->
  segments sec N w true ref = Ok w' ->
  hd_error ref = Some tl -> nth_error ref (length ref - 1) = Some tr ->
  nth_error (w_t w) 0 = Some t0 -> (t0 <= tl)%Q ->
  forall r, (tl <= r <= tr)%Q ->
  (exists x, nth_error (w_t w') 0 = Some x /\ (x <= r)%Q) /\
  ((exists y, nth_error (w_t w') (length (w_t w') - 1) = Some y /\ (r <= y)%Q) \/
   (exists y, nth_error (w_t w) (n - 2) = Some y /\ (y < r)%Q)).
Proof.
  intros sec N w n ref w' tl tr t0 H1 H2 H3 H4 H5 H6 H7 H8 H9 H10 H11 r Hr.
  eapply segments_cover; eauto using time_bounds. lra.
Qed.
Lemma time_last : forall sec N w n ref w' tl tr tn,
  (0 < N)%Q -> samples_of w n -> increasing (w_t w) -> increasing (w_phase w) ->
  segments sec N w true ref = Ok w' ->
  hd_error ref = Some tl -> nth_error ref (length ref - 1) = Some tr -> (tl <= tr)%Q ->
  nth_error (w_t w) (n - 1) = Some tn -> forall x, In x (w_t w') -> (x < tn)%Q.
Proof. intros. eapply segments_last; eauto using time_bounds. Qed.

(** ** data for the examples *)
Definition ramp (n : nat) : wave :=
  {| w_t := map (fun i => inject_Z (Z.of_nat i)) (seq 0 n); w_amp := map (fun i => inject_Z (Z.of_nat i)) (seq 0 n);
     w_phase := map (fun i => inject_Z (3 * Z.of_nat i)) (seq 0 n); w_omega := map (fun _ => 3%Q) (seq 0 n) |}.
Definition no_fit (_ _ : list Q) : res (list Q) := Err ValueError.
Lemma ramp_nth c n k x : nth_error (map (fun i => inject_Z (c * Z.of_nat i)) (seq 0 n)) k = Some x -> x = inject_Z (c * Z.of_nat k).
Proof.
  rewrite nth_error_map. destruct (nth_error (seq 0 n) k) as [y|] eqn:E; [|discriminate].
  cbn. intros H. apply Some_inj in H. subst x.
  assert (k < length (seq 0 n)) by (apply nth_error_Some; congruence). rewrite seq_length in H.
  apply nth_error_nth with (d := 0) in E. rewrite seq_nth in E by exact H. subst y. reflexivity.
Qed.
Lemma ramp_inc c n : (0 < c)%Z -> increasing (map (fun i => inject_Z (c * Z.of_nat i)) (seq 0 n)).
Proof.
  intros Hc i j a b L Ha Hb. apply ramp_nth in Ha. apply ramp_nth in Hb. subst. rewrite <- Zlt_Qlt. nia.
Qed.
Lemma ramp_ok n : increasing (w_t (ramp n)) /\ increasing (w_phase (ramp n)) /\ fine_phase (w_phase (ramp n)).
Proof.
  split; [|split].
  - cbn [ramp w_t]. replace (map (fun i => inject_Z (Z.of_nat i)) (seq 0 n)) with (map (fun i => inject_Z (1 * Z.of_nat i)) (seq 0 n)).
    + apply ramp_inc. lia.
    + apply map_ext. intros a. f_equal. lia.
  - apply ramp_inc. lia.
  - intros k p q Hp Hq. apply ramp_nth in Hp. apply ramp_nth in Hq. subst.
    setoid_replace (inject_Z (3 * Z.of_nat (S k)) - inject_Z (3 * Z.of_nat k))%Q with (3%Q); [reflexivity|].
    unfold Qminus. rewrite <- inject_Z_opp, <- inject_Z_plus. replace (3 * Z.of_nat (S k) + - (3 * Z.of_nat k))%Z with 3%Z by lia. reflexivity.
Qed.
Lemma segment_ex :
  half_up 2 1 /\ samples_of (ramp 60) 60 /\
  (exists w', segments no_fit 2 (ramp 60) true [30%Q] = Ok w' /\ w_t w' = map (fun i => inject_Z (Z.of_nat i)) (seq 25 10)) /\
  (exists w', segments no_fit 2 (ramp 60) true [59%Q] = Ok w' /\ w_t w' = map (fun i => inject_Z (Z.of_nat i)) (seq 50 9)) /\
  (exists w', segments no_fit 2 (ramp 60) true [0%Q] = Ok w' /\ w_t w' = map (fun i => inject_Z (Z.of_nat i)) (seq 0 10)) /\
  (exists w', segments no_fit 2 (ramp 60) true [30%Q; 50%Q; 31%Q] = Ok w' /\ ~ In 50%Q (w_t w')) /\
  snd (use_segment no_fit 1 (Some 100%Q) (ramp 60) true [30%Q]) = Ok (ramp 60).
Proof.
  split; [split; reflexivity || discriminate|]. split; [repeat split|].
  do 3 (split; [eexists; split; [vm_compute; reflexivity|vm_compute; reflexivity]|]).
  split; [|vm_compute; reflexivity].
  eexists. split; [vm_compute; reflexivity|]. cbn [w_t In]. intros H.
  repeat match type of H with _ \/ _ => destruct H as [H|H]; [discriminate H|] end. exact H.
Qed.
