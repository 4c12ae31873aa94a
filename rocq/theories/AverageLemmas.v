(** Proofs about the mean anomaly and about orbit averages. *)
From Coq Require Import Permutation.
From Verif Require Import Base BaseLemmas UtilsModel UtilsSpec UtilsLemmas MeasureModel MeasureSpec.
Open Scope nat_scope.

(** ** mean anomaly *)
Definition anomalies_from (k n : nat) : list Q := map (fun i => (inject_Z (Z.of_nat i) * 2 * np_pi)%Q) (seq k n).
Lemma increasing_tl a l : increasing (a :: l) -> increasing l.
Proof. intros H i j x y L Hx Hy. apply (H (S i) (S j) x y); auto. lia. Qed.
Lemma np_pi_pos : (0 < np_pi)%Q. Proof. reflexivity. Qed.
Lemma two_pi_pos : (0 < two_pi)%Q. Proof. reflexivity. Qed.
Lemma scan_between xp : forall k i a b t, increasing xp -> nth_error xp i = Some a -> nth_error xp (S i) = Some b ->
  (a <= t < b)%Q ->
  (interp_scan t xp (anomalies_from k (length xp)) == two_pi * (inject_Z (Z.of_nat (k + i)) + (t - a) / (b - a)))%Q.
Proof.
  induction xp as [|a0 xp IH]; intros k i a b t Inc Ha Hb [L1 L2]; [destruct i; discriminate|].
  destruct xp as [|b0 xp]; [destruct i; discriminate|].
  destruct i as [|i].
  - cbn in Ha, Hb. apply Some_inj in Ha, Hb. subst a0 b0. rewrite Nat.add_0_r.
    cbn [length anomalies_from seq map]. unfold anomalies_from. cbn [seq map interp_scan].
    rewrite (proj2 (Qlt_bool_iff t b) L2). unfold two_pi.
    assert (N : ~ (b - a == 0)%Q) by lra.
    rewrite Nat2Z.inj_succ. unfold Z.succ. rewrite inject_Z_plus. change (inject_Z 1) with 1%Q.
    field. exact N.
  - cbn in Ha, Hb. unfold anomalies_from. cbn [length seq map]. cbn [interp_scan].
    assert (NB : Qlt_bool t b0 = false).
    { apply Qlt_bool_false. destruct i as [|i].
      - cbn in Ha. apply Some_inj in Ha. subst. exact L1.
      - assert ((b0 < a)%Q); [|lra]. apply (Inc 1 (S (S i)) b0 a); cbn; auto. lia. }
    rewrite NB. fold (seq (S k) (length (b0 :: xp))).
    specialize (IH (S k) i a b t (increasing_tl _ _ Inc) Ha Hb (conj L1 L2)).
    unfold anomalies_from in IH. cbn [length seq map] in IH. rewrite IH.
    replace (S k + i) with (k + S i) by lia. reflexivity.
Qed.
Lemma scan_last xp : forall k a t, increasing xp -> last_is xp a -> (a <= t)%Q ->
  (interp_scan t xp (anomalies_from k (length xp)) == two_pi * inject_Z (Z.of_nat (k + (length xp - 1))))%Q.
Proof.
  induction xp as [|a0 xp IH]; intros k a t Inc [r Hr] L; [destruct r; discriminate|].
  destruct xp as [|b0 xp].
  - cbn. rewrite Nat.add_0_r. unfold two_pi. ring.
  - destruct r as [|x r]; [discriminate|]. cbn in Hr. injection Hr as <- Hr.
    assert (LI : last_is (b0 :: xp) a) by (now exists r).
    assert (LB : (b0 <= a)%Q).
    { destruct r as [|y r]; cbn in Hr.
      - injection Hr as -> _. lra.
      - injection Hr as -> Hr. apply Qlt_le_weak. apply (Inc 1 (S (S (length r))) y a); [lia|reflexivity|].
        cbn. rewrite Hr. rewrite nth_error_app2, Nat.sub_diag by lia. reflexivity. }
    unfold anomalies_from. cbn [length seq map interp_scan].
    assert (NB : Qlt_bool t b0 = false) by (apply Qlt_bool_false; lra). rewrite NB.
    specialize (IH (S k) a t (increasing_tl _ _ Inc) LI L). unfold anomalies_from in IH. cbn [length seq map] in IH.
    rewrite IH. cbn [length].
    replace (S k + (S (length xp) - 1)) with (k + (S (S (length xp)) - 1)) by lia. reflexivity.
Qed.
Lemma qmod_unique x m z f : (0 < m)%Q -> (x == m * (inject_Z z + f))%Q -> (0 <= f < 1)%Q -> (qmod x m == m * f)%Q.
Proof.
  intros Hm Hx [F0 F1].
  assert (E : Qfloor (x / m) = z).
  { assert (X : (x / m == inject_Z z + f)%Q) by (rewrite Hx; field; lra).
    rewrite (Qfloor_comp _ _ X).
    assert (A := Qfloor_le (inject_Z z + f)). assert (B := Qlt_floor (inject_Z z + f)).
    set (w := Qfloor _) in *.
    assert (C1 : (inject_Z w < inject_Z (z + 1))%Q).
    { rewrite inject_Z_plus. change (inject_Z 1) with 1%Q. lra. }
    assert (C2 : (inject_Z z < inject_Z (w + 1))%Q) by lra.
    rewrite <- Zlt_Qlt in C1, C2. lia. }
  unfold qmod. rewrite E, Hx. ring.
Qed.
Lemma np_interp_ge x a u xp fp : (a <= x)%Q -> np_interp x (a :: xp) (u :: fp) = interp_scan x (a :: xp) (u :: fp).
Proof. intros H. unfold np_interp. now rewrite (proj2 (Qlt_bool_false x a) H). Qed.
Lemma mean_between tp i a b t : increasing tp -> nth_error tp i = Some a -> nth_error tp (S i) = Some b ->
  (a <= t < b)%Q -> (mean_anomaly_at tp t == two_pi * ((t - a) / (b - a)))%Q.
Proof.
  intros Inc Ha Hb L. unfold mean_anomaly_at.
  assert (F : (0 <= (t - a) / (b - a) < 1)%Q).
  { split; [apply Qle_shift_div_l; lra|apply Qlt_shift_div_r; lra]. }
  destruct tp as [|x tp]; [destruct i; discriminate|].
  assert (Lx : (x <= t)%Q).
  { destruct i as [|i]; [cbn in Ha; apply Some_inj in Ha; subst; lra|].
    assert ((x < a)%Q); [|lra]. apply (Inc 0 (S i) x a); auto. lia. }
  apply (qmod_unique _ _ (Z.of_nat i)); [reflexivity| |exact F].
  unfold pericenter_anomalies. cbn [length seq map]. rewrite np_interp_ge by exact Lx.
  rewrite <- (scan_between (x :: tp) 0 i a b t Inc Ha Hb L). reflexivity.
Qed.
Lemma mean_last tp a t : increasing tp -> last_is tp a -> (t == a)%Q -> (mean_anomaly_at tp t == 0)%Q.
Proof.
  intros Inc LI E. unfold mean_anomaly_at.
  destruct tp as [|x tp]; [destruct LI as [r H]; destruct r; discriminate|].
  assert (Lx : (x <= t)%Q).
  { destruct LI as [r H]. destruct r as [|y r]; cbn in H; injection H as -> H; [lra|].
    assert ((y < a)%Q); [|lra]. apply (Inc 0 (S (length r)) y a); [lia|reflexivity|].
    cbn. rewrite H. rewrite nth_error_app2, Nat.sub_diag by lia. reflexivity. }
  rewrite (qmod_unique _ _ (Z.of_nat (length (x :: tp) - 1)) 0); [ring|reflexivity| |lra].
  unfold pericenter_anomalies. cbn [length seq map]. rewrite np_interp_ge by exact Lx.
  rewrite Qplus_0_r.
  apply (scan_last (x :: tp) 0 a t Inc LI). lra.
Qed.
Lemma locate tp first last t : increasing tp -> first_is tp first -> last_is tp last -> (first <= t <= last)%Q ->
  (t == last)%Q \/ exists i a b, nth_error tp i = Some a /\ nth_error tp (S i) = Some b /\ (a <= t < b)%Q.
Proof.
  revert first. induction tp as [|x tp IH]; intros first Inc [r1 H1] [r2 H2] L; [destruct r2; discriminate|].
  injection H1 as -> _. destruct tp as [|y tp].
  - destruct r2 as [|? r2]; cbn in H2; [injection H2 as ->; left; lra|injection H2 as -> H2; destruct r2; discriminate].
  - destruct (Qlt_le_dec t y) as [L1|L1].
    + right. exists 0, first, y. repeat split; auto. lra.
    + destruct r2 as [|? r2]; [discriminate|]. cbn in H2. injection H2 as -> H2.
      destruct (IH y (increasing_tl _ _ Inc)) as [E|(i & a & b & A & B & C)].
      * now exists tp. * now exists r2. * lra. * now left.
      * right. exists (S i), a, b. auto.
Qed.
Lemma affine_increasing l a b : (0 < a)%Q -> increasing l -> increasing (map (fun t => a * t + b)%Q l).
Proof.
  intros P Inc i j x y L Hx Hy. rewrite nth_error_map in Hx, Hy.
  destruct (nth_error l i) as [u|] eqn:Eu; [|discriminate]. destruct (nth_error l j) as [v|] eqn:Ev; [|discriminate].
  cbn in Hx, Hy. apply Some_inj in Hx, Hy. subst. assert ((u < v)%Q) by (eapply Inc; eauto).
  assert ((a * u < a * v)%Q) by (now apply Qmult_lt_l). lra.
Qed.
Lemma last_is_map {A B} (f : A -> B) l a : last_is l a -> last_is (map f l) (f a).
Proof. intros [r ->]. exists (map f r). now rewrite map_app. Qed.
Lemma mean_affine tp first last t a b : increasing tp -> first_is tp first -> last_is tp last -> (first <= t <= last)%Q ->
  (0 < a)%Q ->
  (mean_anomaly_at (map (fun t => a * t + b) tp) (a * t + b) == mean_anomaly_at tp t)%Q.
Proof.
  intros Inc F La L P. assert (Inc' := affine_increasing tp a b P Inc).
  destruct (locate tp first last t Inc F La L) as [E|(i & x & y & A & B & C)].
  - rewrite (mean_last tp last t Inc La E). apply (mean_last _ (a * last + b)%Q); auto; [|rewrite E; reflexivity].
    apply (last_is_map (fun t => a * t + b)%Q tp last La).
  - rewrite (mean_between tp i x y t Inc A B C).
    assert (M1 : (a * x <= a * t)%Q) by (apply Qmult_le_l; lra).
    assert (M2 : (a * t < a * y)%Q) by (apply Qmult_lt_l; lra).
    rewrite (mean_between _ i (a * x + b) (a * y + b) _ Inc').
    + field. split; lra.
    + rewrite nth_error_map, A. reflexivity.
    + rewrite nth_error_map, B. reflexivity.
    + lra.
Qed.

(** ** orbit averages *)
Lemma orbit_averages_inv c loc w : orbit_averages c loc = Ok w ->
  length w = length loc - 1 /\
  forall i p q, nth_error loc i = Some p -> nth_error loc (S i) = Some q ->
    exists fp fq tp tq x, nth_error (c_phase c) p = Some fp /\ nth_error (c_phase c) q = Some fq /\
      nth_error (c_t c) p = Some tp /\ nth_error (c_t c) q = Some tq /\ ~ (tq - tp == 0)%Q /\
      nth_error w i = Some x /\ x = ((fq - fp) / (tq - tp))%Q.
Proof.
  unfold orbit_averages. intros H. inv_bind H. inv_bind H. unfold qdivs in H.
  destruct (existsb _ _) eqn:Z; [discriminate|]. apply Ok_inj in H; subst w.
  split.
  { rewrite map2_length, !qdiff_length, (gather_length _ _ _ E), (gather_length _ _ _ E0). lia. }
  intros i p q Hp Hq.
  destruct (nth_error v i) as [fp|] eqn:F1.
  2:{ apply nth_error_None in F1. rewrite (gather_length _ _ _ E) in F1. apply nth_error_None in F1. congruence. }
  destruct (nth_error v (S i)) as [fq|] eqn:F2.
  2:{ apply nth_error_None in F2. rewrite (gather_length _ _ _ E) in F2. apply nth_error_None in F2. congruence. }
  destruct (nth_error v0 i) as [tp|] eqn:T1.
  2:{ apply nth_error_None in T1. rewrite (gather_length _ _ _ E0) in T1. apply nth_error_None in T1. congruence. }
  destruct (nth_error v0 (S i)) as [tq|] eqn:T2.
  2:{ apply nth_error_None in T2. rewrite (gather_length _ _ _ E0) in T2. apply nth_error_None in T2. congruence. }
  assert (D1 : nth_error (qdiff v) i = Some (fq - fp)%Q) by (apply qdiff_nth; eauto).
  assert (D2 : nth_error (qdiff v0) i = Some (tq - tp)%Q) by (apply qdiff_nth; eauto).
  assert (G : forall {A} (l : list A) idx r k j a, gather l idx = Ok r -> nth_error idx k = Some j -> nth_error r k = Some a ->
            nth_error l j = Some a).
  { intros A l idx r k j a Hg Hk Hr. revert r k Hg Hk Hr. induction idx as [|x idx IH]; intros r k Hg Hk Hr; [destruct k; discriminate|].
    cbn in Hg. inv_bind Hg. inv_bind Hg. apply Ok_inj in Hg; subst r. destruct k as [|k]; cbn in Hk, Hr.
    - apply Some_inj in Hk, Hr. subst. now apply get_ok in E1.
    - eapply IH; eauto. }
  exists fp, fq, tp, tq, ((fq - fp) / (tq - tp))%Q. repeat split; eauto.
  - intros N. rewrite <- not_true_iff_false in Z. apply Z. apply existsb_exists. exists (tq - tp)%Q.
    split; [eapply nth_error_In; eauto|now apply Qeq_bool_iff].
  - rewrite nth_error_map2, D1, D2. reflexivity.
Qed.

(** The rate over [p, q] lies between the smallest and the largest rate over single samples. *)
Lemma average_between (ph t : list Q) (m M : Q) : forall n p fp fq tp tq,
  nth_error ph p = Some fp -> nth_error ph (p + n) = Some fq -> nth_error t p = Some tp -> nth_error t (p + n) = Some tq ->
  (forall k a b u v, p <= k < p + n -> nth_error ph k = Some a -> nth_error ph (S k) = Some b ->
     nth_error t k = Some u -> nth_error t (S k) = Some v -> (m * (v - u) <= b - a <= M * (v - u))%Q) ->
  (m * (tq - tp) <= fq - fp <= M * (tq - tp))%Q.
Proof.
  induction n as [|n IH]; intros p fp fq tp tq F1 F2 T1 T2 H.
  - rewrite Nat.add_0_r in F2, T2. rewrite F1 in F2. rewrite T1 in T2. apply Some_inj in F2, T2. subst. split; lra.
  - replace (p + S n) with (S (p + n)) in * by lia.
    destruct (nth_error ph (p + n)) as [f1|] eqn:E1.
    2:{ apply nth_error_None in E1. assert (nth_error ph (S (p + n)) = None) by (apply nth_error_None; lia). congruence. }
    destruct (nth_error t (p + n)) as [t1|] eqn:E2.
    2:{ apply nth_error_None in E2. assert (nth_error t (S (p + n)) = None) by (apply nth_error_None; lia). congruence. }
    assert (A : (m * (t1 - tp) <= f1 - fp <= M * (t1 - tp))%Q).
    { apply (IH p); auto. intros. eapply H; eauto. lia. }
    assert (B : (m * (tq - t1) <= fq - f1 <= M * (tq - t1))%Q) by (eapply (H (p + n)); eauto; lia).
    lra.
Qed.
Lemma average_bounded (ph t : list Q) (m M : Q) p q fp fq tp tq : p <= q -> (tp < tq)%Q ->
  nth_error ph p = Some fp -> nth_error ph q = Some fq -> nth_error t p = Some tp -> nth_error t q = Some tq ->
  (forall k a b u v, p <= k < q -> nth_error ph k = Some a -> nth_error ph (S k) = Some b ->
     nth_error t k = Some u -> nth_error t (S k) = Some v -> (m * (v - u) <= b - a <= M * (v - u))%Q) ->
  (m <= (fq - fp) / (tq - tp) <= M)%Q.
Proof.
  intros L P F1 F2 T1 T2 H. replace q with (p + (q - p)) in * by lia.
  destruct (average_between ph t m M _ _ _ _ _ _ F1 F2 T1 T2 H) as [A B].
  split; [apply Qle_shift_div_l; lra|apply Qle_shift_div_r; lra].
Qed.

(** ** sorting by time *)
Definition le_time (p q : Q * Q) : Prop := (fst p <= fst q)%Q.
Lemma insert_perm p l : Permutation (insert_pair p l) (p :: l).
Proof.
  induction l as [|a r IH]; cbn; [reflexivity|]. destruct (Qlt_bool _ _); [reflexivity|].
  rewrite IH. apply perm_swap.
Qed.
Lemma insert_sorted p l : StronglySorted le_time l -> StronglySorted le_time (insert_pair p l).
Proof.
  induction l as [|a r IH]; intros H; cbn; [repeat constructor|]. inversion H as [|? ? H1 H2]; subst.
  destruct (Qlt_bool (fst p) (fst a)) eqn:E.
  - apply Qlt_bool_iff in E. constructor; [exact H|]. constructor; [unfold le_time; lra|].
    eapply Forall_impl; [|exact H2]. unfold le_time. intros x Hx. lra.
  - apply Qlt_bool_false in E. constructor; [auto|].
    apply (Permutation_Forall (Permutation_sym (insert_perm p r))). constructor; [exact E|exact H2].
Qed.
Lemma sort_pairs_perm l : Permutation (sort_pairs l) l.
Proof.
  unfold sort_pairs. assert (G : forall acc, Permutation (fold_left (fun acc p => insert_pair p acc) l acc) (l ++ acc)).
  { induction l as [|a r IH]; intros acc; cbn; [reflexivity|]. rewrite IH, insert_perm. symmetry. apply Permutation_middle. }
  rewrite G, app_nil_r. reflexivity.
Qed.
Lemma sort_pairs_sorted l : StronglySorted le_time (sort_pairs l).
Proof.
  unfold sort_pairs. assert (G : forall acc, StronglySorted le_time acc -> StronglySorted le_time (fold_left (fun acc p => insert_pair p acc) l acc)).
  { induction l as [|a r IH]; intros acc H; cbn; [exact H|]. apply IH. now apply insert_sorted. }
  apply G. constructor.
Qed.
Lemma midpoints_length l : length (midpoints l) = length l - 1.
Proof.
  unfold midpoints. rewrite map2_length.
  assert (A : length (removelast l) = length l - 1).
  { destruct l as [|a r]; [reflexivity|]. rewrite removelast_firstn_len. rewrite firstn_length. lia. }
  assert (B : length (tl l) = length l - 1) by (destruct l; cbn; lia). lia.
Qed.
Lemma midpoints_nth l i a b : nth_error l i = Some a -> nth_error l (S i) = Some b ->
  nth_error (midpoints l) i = Some ((1 # 2) * (a + b))%Q.
Proof.
  unfold midpoints. revert i. induction l as [|x l IH]; intros i Ha Hb; [destruct i; discriminate|].
  destruct l as [|y l]; [destruct i; discriminate|].
  destruct i as [|i]; cbn in Ha, Hb.
  - apply Some_inj in Ha, Hb. subst. reflexivity.
  - specialize (IH i Ha Hb). destruct l as [|z l]; [destruct i; discriminate|]. exact IH.
Qed.
