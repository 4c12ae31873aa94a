(** Fourth-order derivative: exactness on quartics, linearity. *)
From Verif Require Import Base BaseLemmas UtilsModel UtilsSpec.
Open Scope nat_scope.

Lemma samples_length f t0 dt n : length (samples f t0 dt n) = n.
Proof. unfold samples, grid. now rewrite !map_length, seq_length. Qed.

Lemma nth_error_seq s n i : nth_error (seq s n) i = if i <? n then Some (s + i) else None.
Proof.
  revert s i. induction n as [|n IH]; intros s i; cbn [seq].
  - destruct i; reflexivity.
  - destruct i as [|i]; cbn [nth_error].
    + now rewrite Nat.add_0_r.
    + rewrite IH. replace (S i <? S n) with (i <? n) by reflexivity.
      destruct (i <? n); f_equal; lia.
Qed.

Lemma samples_nth f t0 dt n i :
  nth_error (samples f t0 dt n) i =
  if i <? n then Some (f (t0 + inject_Z (Z.of_nat i) * dt)%Q) else None.
Proof.
  unfold samples, grid. rewrite !nth_error_map, nth_error_seq.
  destruct (i <? n); reflexivity.
Qed.

Lemma deriv_interior_length y : 5 <= length y -> length (deriv_interior y) = length y - 4.
Proof.
  intros H. unfold deriv_interior, zslice, norm_bound. cbn [Z.leb Z.compare].
  rewrite !map2_length, !slice_length, skipn_length. lia.
Qed.

Lemma deriv_interior_nth y i a b d e : 5 <= length y ->
  nth_error y i = Some a -> nth_error y (i + 1) = Some b ->
  nth_error y (i + 3) = Some d -> nth_error y (i + 4) = Some e ->
  nth_error (deriv_interior y) i = Some ((a - 8 * b + 8 * d - e) / 12)%Q.
Proof.
  intros H Ha Hb Hd He.
  assert (L : i + 4 < length y) by (apply nth_error_Some; congruence).
  unfold deriv_interior. rewrite !nth_error_map2. unfold zslice.
  rewrite !nth_error_slice, nth_error_skipn. unfold norm_bound. cbn [Z.leb Z.compare].
  change (Z.to_nat 0) with 0. change (Z.to_nat 1) with 1. change (Z.to_nat 3) with 3.
  destruct (Nat.ltb_spec i (Z.to_nat (Z.of_nat (length y) + -4) - 0)); [|lia].
  destruct (Nat.ltb_spec i (Z.to_nat (Z.of_nat (length y) + -3) - 1)); [|lia].
  destruct (Nat.ltb_spec i (Z.to_nat (Z.of_nat (length y) + -1) - 3)); [|lia].
  rewrite Nat.add_0_l, (Nat.add_comm 1), (Nat.add_comm 3), (Nat.add_comm 4).
  rewrite Ha, Hb, Hd, He. reflexivity.
Qed.

Definition at_i (i : nat) (t0 dt : Q) : Q := (t0 + inject_Z (Z.of_nat i) * dt)%Q.

Lemma inject_nat_add i k :
  (inject_Z (Z.of_nat (i + k)) == inject_Z (Z.of_nat i) + inject_Z (Z.of_nat k))%Q.
Proof. rewrite Nat2Z.inj_add, inject_Z_plus. reflexivity. Qed.

Lemma window5 f t0 dt n j : j + 5 <= n ->
  firstn 5 (skipn j (samples f t0 dt n)) =
  [f (at_i j t0 dt); f (at_i (j + 1) t0 dt); f (at_i (j + 2) t0 dt);
   f (at_i (j + 3) t0 dt); f (at_i (j + 4) t0 dt)].
Proof.
  intros H.
  assert (E : forall k, k < 5 -> nth_error (firstn 5 (skipn j (samples f t0 dt n))) k
              = Some (f (at_i (j + k) t0 dt))).
  { intros k Hk. rewrite nth_error_firstn, nth_error_skipn, samples_nth.
    destruct (Nat.ltb_spec k 5); [|lia]. destruct (Nat.ltb_spec (j + k) n); [|lia]. reflexivity. }
  assert (Hl : length (firstn 5 (skipn j (samples f t0 dt n))) = 5).
  { rewrite firstn_length, skipn_length, samples_length. lia. }
  destruct (firstn 5 (skipn j (samples f t0 dt n))) as [|a0 [|a1 [|a2 [|a3 [|a4 [|]]]]]];
    cbn in Hl; try lia.
  generalize (E 0 ltac:(lia)) (E 1 ltac:(lia)) (E 2 ltac:(lia)) (E 3 ltac:(lia)) (E 4 ltac:(lia)).
  cbn [nth_error]. rewrite Nat.add_0_r. congruence.
Qed.

(** The five stencils on quartics; x is the (scaled) index of the first point of the window. *)
Ltac quartic c :=
  destruct c as [|c0 [|c1 [|c2 [|c3 [|c4 [|]]]]]];
  [ | | | | | | exfalso; cbn in *; lia];
  unfold dpoly, edge_dot, stencil0, stencil1, stencil_m2, stencil_m1;
  cbn [poly tl dcoefs qdot map];
  change (inject_Z 1) with 1%Q; change (inject_Z (1 + 1)) with 2%Q;
  change (inject_Z (1 + 1 + 1)) with 3%Q; change (inject_Z (1 + 1 + 1 + 1)) with 4%Q;
  field; assumption.

Section Quartic.
  Variables (c : list Q) (x dt : Q).
  Hypothesis Hc : length c <= 5.
  Hypothesis Hdt : ~ (dt == 0)%Q.
  Let f := poly c.
  Let w := [f x; f (x + dt); f (x + 2 * dt); f (x + 3 * dt); f (x + 4 * dt)]%Q.
  Lemma quart_0 : (edge_dot w stencil0 / dt == dpoly c x)%Q.
  Proof. unfold w, f. quartic c. Qed.
  Lemma quart_1 : (edge_dot w stencil1 / dt == dpoly c (x + dt))%Q.
  Proof. unfold w, f. quartic c. Qed.
  Lemma quart_mid :
    ((f x - 8 * f (x + dt) + 8 * f (x + 3 * dt) - f (x + 4 * dt)) / 12 / dt
     == dpoly c (x + 2 * dt))%Q.
  Proof. unfold f. quartic c. Qed.
  Lemma quart_m2 : (edge_dot w stencil_m2 / dt == dpoly c (x + 3 * dt))%Q.
  Proof. unfold w, f. quartic c. Qed.
  Lemma quart_m1 : (edge_dot w stencil_m1 / dt == dpoly c (x + 4 * dt))%Q.
  Proof. unfold w, f. quartic c. Qed.
End Quartic.

Global Instance poly_comp c : Proper (Qeq ==> Qeq) (poly c).
Proof.
  intros x y H. induction c as [|a c IH]; cbn [poly]; [reflexivity|].
  rewrite IH, H. reflexivity.
Qed.
Global Instance dpoly_comp c : Proper (Qeq ==> Qeq) (dpoly c).
Proof. intros x y H. unfold dpoly. now rewrite H. Qed.

Lemma at_i_add j k t0 dt : (at_i (j + k) t0 dt == at_i j t0 dt + inject_Z (Z.of_nat k) * dt)%Q.
Proof. unfold at_i. rewrite inject_nat_add. ring. Qed.

Lemma edge_dot_comp w w' s : Forall2 Qeq w w' -> (edge_dot w s == edge_dot w' s)%Q.
Proof.
  unfold edge_dot. intros H. revert s. induction H as [|a b w w' E _ IH]; intros s.
  - reflexivity.
  - destruct s as [|z s]; cbn [map qdot]; [reflexivity|].
    rewrite E, IH. reflexivity.
Qed.

Lemma window_comp c j t0 dt :
  Forall2 Qeq
    [poly c (at_i j t0 dt); poly c (at_i (j + 1) t0 dt); poly c (at_i (j + 2) t0 dt);
     poly c (at_i (j + 3) t0 dt); poly c (at_i (j + 4) t0 dt)]
    (let x := at_i j t0 dt in
     [poly c x; poly c (x + dt); poly c (x + 2 * dt); poly c (x + 3 * dt); poly c (x + 4 * dt)]%Q).
Proof.
  cbv zeta. repeat constructor; rewrite ?at_i_add; apply poly_comp; change (inject_Z (Z.of_nat 1)) with 1%Q;
  change (inject_Z (Z.of_nat 2)) with 2%Q; change (inject_Z (Z.of_nat 3)) with 3%Q;
  change (inject_Z (Z.of_nat 4)) with 4%Q; ring.
Qed.

Lemma time_deriv_shape y dt r : time_deriv_4thOrder y dt = Ok r -> length r = length y.
Proof.
  unfold time_deriv_4thOrder. destruct (Nat.ltb_spec (length y) 5); [discriminate|].
  destruct (Qeq_bool dt 0); [discriminate|]. intros E. apply Ok_inj in E. subst r.
  rewrite map_length, !app_length, deriv_interior_length by lia. cbn [length]. lia.
Qed.

Lemma time_deriv_errors y dt :
  (time_deriv_4thOrder y dt = Err ValueError <-> length y < 5) /\
  (5 <= length y -> ~ (dt == 0)%Q -> exists r, time_deriv_4thOrder y dt = Ok r).
Proof.
  unfold time_deriv_4thOrder. split.
  - destruct (Nat.ltb_spec (length y) 5); [split; auto|].
    destruct (Qeq_bool dt 0); split; intros; try discriminate; lia.
  - intros H1 H2. destruct (Nat.ltb_spec (length y) 5); [lia|].
    apply Qeq_bool_false in H2. rewrite H2. eauto.
Qed.

Lemma nth_error_app_mid {A} (a b c : list A) i :
  nth_error (a ++ b ++ c) i =
  if i <? length a then nth_error a i
  else if i <? length a + length b then nth_error b (i - length a)
  else nth_error c (i - length a - length b).
Proof.
  destruct (Nat.ltb_spec i (length a)).
  - now rewrite nth_error_app1.
  - rewrite nth_error_app2 by lia. destruct (Nat.ltb_spec i (length a + length b)).
    + rewrite nth_error_app1 by lia. reflexivity.
    + rewrite nth_error_app2 by lia. reflexivity.
Qed.

Lemma time_deriv_quartic c t0 dt n : length c <= 5 -> ~ (dt == 0)%Q -> 5 <= n ->
  exists r, time_deriv_4thOrder (samples (poly c) t0 dt n) dt = Ok r /\ length r = n /\
    forall i d, nth_error r i = Some d -> (d == dpoly c (t0 + inject_Z (Z.of_nat i) * dt))%Q.
Proof.
  intros Hc Hdt Hn.
  destruct (proj2 (time_deriv_errors (samples (poly c) t0 dt n) dt)) as [r Hr];
    [rewrite samples_length; lia|exact Hdt|].
  exists r. split; [exact Hr|]. split; [rewrite (time_deriv_shape _ _ _ Hr); apply samples_length|].
  intros i d Hd. revert Hr. unfold time_deriv_4thOrder.
  rewrite samples_length. destruct (Nat.ltb_spec n 5); [lia|].
  rewrite (proj2 (Qeq_bool_false dt 0) Hdt). intros E. apply Ok_inj in E. subst r.
  rewrite nth_error_map in Hd.
  assert (W0 : firstn 5 (samples (poly c) t0 dt n) = firstn 5 (skipn 0 (samples (poly c) t0 dt n)))
    by reflexivity.
  assert (W1 : skipn (n - 5) (samples (poly c) t0 dt n)
               = firstn 5 (skipn (n - 5) (samples (poly c) t0 dt n))).
  { rewrite firstn_all2; [reflexivity|]. rewrite skipn_length, samples_length. lia. }
  rewrite W0, W1, !window5 in Hd by lia.
  rewrite nth_error_app_mid in Hd. cbn [length] in Hd.
  rewrite deriv_interior_length, samples_length in Hd by (rewrite samples_length; lia).
  assert (K : forall j k, i = j + k ->
            (t0 + inject_Z (Z.of_nat i) * dt == at_i j t0 dt + inject_Z (Z.of_nat k) * dt)%Q).
  { intros j k ->. rewrite <- at_i_add. reflexivity. }
  destruct (Nat.ltb_spec i 2) as [L|L].
  - destruct i as [|[|i]]; [| |lia]; cbn [nth_error option_map] in Hd; injection Hd as <-.
    + rewrite (edge_dot_comp _ _ _ (window_comp c 0 t0 dt)). cbv zeta.
      rewrite (quart_0 c (at_i 0 t0 dt) dt Hc Hdt). unfold at_i. reflexivity.
    + rewrite (edge_dot_comp _ _ _ (window_comp c 0 t0 dt)). cbv zeta.
      rewrite (quart_1 c (at_i 0 t0 dt) dt Hc Hdt). apply dpoly_comp. unfold at_i.
      change (inject_Z (Z.of_nat 0)) with 0%Q. change (inject_Z (Z.of_nat 1)) with 1%Q. ring.
  - destruct (Nat.ltb_spec i (2 + (n - 4))) as [L2|L2].
    + assert (B : forall k, k < 5 -> nth_error (samples (poly c) t0 dt n) (i - 2 + k)
                      = Some (poly c (at_i (i - 2 + k) t0 dt))).
      { intros k Hk. rewrite samples_nth. destruct (Nat.ltb_spec (i - 2 + k) n); [reflexivity|lia]. }
      generalize (B 0 ltac:(lia)). rewrite Nat.add_0_r. intros B0.
      assert (L5 : 5 <= length (samples (poly c) t0 dt n)) by (rewrite samples_length; lia).
      rewrite (deriv_interior_nth _ (i - 2) _ _ _ _ L5
                 B0 (B 1 ltac:(lia)) (B 3 ltac:(lia)) (B 4 ltac:(lia))) in Hd.
      cbn [option_map] in Hd. injection Hd as <-.
      rewrite (K (i - 2) 2) by lia. rewrite !at_i_add.
      change (inject_Z (Z.of_nat 1)) with 1%Q. change (inject_Z (Z.of_nat 2)) with 2%Q.
      change (inject_Z (Z.of_nat 3)) with 3%Q. change (inject_Z (Z.of_nat 4)) with 4%Q.
      rewrite <- (quart_mid c (at_i (i - 2) t0 dt) dt Hc Hdt).
      assert (E1 : (at_i (i - 2) t0 dt + 1 * dt == at_i (i - 2) t0 dt + dt)%Q) by ring.
      rewrite E1. reflexivity.
    + assert (Hi : i - 2 - (n - 4) < 2).
      { assert (S1 : i - 2 - (n - 4) <
                     length [edge_dot (firstn 5 (skipn (n-5) (samples (poly c) t0 dt n))) stencil_m2;
                             edge_dot (firstn 5 (skipn (n-5) (samples (poly c) t0 dt n))) stencil_m1]).
        { apply nth_error_Some. rewrite !window5 by lia.
          intros Hx. rewrite Hx in Hd. discriminate. }
        cbn [length] in S1. exact S1. }
      assert (Hi' : i - 2 - (n - 4) = 0 \/ i - 2 - (n - 4) = 1) by lia.
      destruct Hi' as [Hi'|Hi']; rewrite Hi' in Hd; cbn [nth_error option_map] in Hd; injection Hd as <-.
      * rewrite (edge_dot_comp _ _ _ (window_comp c (n - 5) t0 dt)). cbv zeta.
        rewrite (quart_m2 c (at_i (n - 5) t0 dt) dt Hc Hdt).
        rewrite (K (n - 5) 3) by lia. reflexivity.
      * rewrite (edge_dot_comp _ _ _ (window_comp c (n - 5) t0 dt)). cbv zeta.
        rewrite (quart_m1 c (at_i (n - 5) t0 dt) dt Hc Hdt).
        rewrite (K (n - 5) 4) by lia. reflexivity.
Qed.

(** ** linearity *)
Lemma qdot_linear a b : forall u v s, length u = length v ->
  (qdot (map2 (fun x y => a * x + b * y) u v) s == a * qdot u s + b * qdot v s)%Q.
Proof.
  induction u as [|x u IH]; intros [|y v] s H; try discriminate; cbn [map2 qdot].
  - ring.
  - destruct s as [|z s]; [ring|]. rewrite IH by (cbn in H; lia). ring.
Qed.
Lemma map2_firstn {A B C} (f : A -> B -> C) : forall n u v,
  firstn n (map2 f u v) = map2 f (firstn n u) (firstn n v).
Proof.
  induction n as [|n IH]; intros [|x u] [|y v]; cbn [firstn map2]; auto.
  now rewrite IH.
Qed.
Lemma map2_skipn {A B C} (f : A -> B -> C) : forall n u v, length u = length v ->
  skipn n (map2 f u v) = map2 f (skipn n u) (skipn n v).
Proof.
  induction n as [|n IH]; intros [|x u] [|y v] H; cbn [skipn map2]; auto; try discriminate.
Qed.
Lemma map2_nth_ex {A B} (f : A -> A -> B) u v i x : length u = length v ->
  nth_error (map2 f u v) i = Some x ->
  exists a b, nth_error u i = Some a /\ nth_error v i = Some b /\ x = f a b.
Proof.
  intros _. rewrite nth_error_map2.
  destruct (nth_error u i), (nth_error v i); intros H; try discriminate.
  injection H as <-. eauto.
Qed.

Lemma time_deriv_linear u v dt a b ru rv : length u = length v ->
  time_deriv_4thOrder u dt = Ok ru -> time_deriv_4thOrder v dt = Ok rv ->
  exists r, time_deriv_4thOrder (map2 (fun x y => a * x + b * y)%Q u v) dt = Ok r /\
    forall i d du dv, nth_error r i = Some d -> nth_error ru i = Some du ->
      nth_error rv i = Some dv -> (d == a * du + b * dv)%Q.
Proof.
  intros HL Hu Hv.
  set (w := map2 (fun x y => a * x + b * y)%Q u v).
  assert (Lw : length w = length u) by (unfold w; rewrite map2_length, <- HL; lia).
  revert Hu Hv. unfold time_deriv_4thOrder at 1 2.
  destruct (Nat.ltb_spec (length u) 5) as [H5|H5]; [discriminate|].
  destruct (Nat.ltb_spec (length v) 5) as [H5'|H5']; [lia|].
  destruct (Qeq_bool dt 0) eqn:Edt; [discriminate|].
  intros Eu Ev. apply Ok_inj in Eu. apply Ok_inj in Ev. subst ru rv.
  assert (Hdt : ~ (dt == 0)%Q) by (now apply Qeq_bool_false).
  destruct (proj2 (time_deriv_errors w dt)) as [r Hr]; [lia|exact Hdt|].
  exists r. split; [exact Hr|].
  intros i d du dv Hd Hdu Hdv. revert Hr. unfold time_deriv_4thOrder.
  rewrite Lw. destruct (Nat.ltb_spec (length u) 5); [lia|]. rewrite Edt.
  intros E. apply Ok_inj in E. subst r.
  rewrite nth_error_map, nth_error_app_mid in Hd, Hdu, Hdv. cbn [length] in Hd, Hdu, Hdv.
  rewrite deriv_interior_length in Hd, Hdu, Hdv by lia. rewrite Lw in Hd. rewrite <- HL in Hdv.
  assert (ED : forall s, (edge_dot (firstn 5 w) s ==
               a * edge_dot (firstn 5 u) s + b * edge_dot (firstn 5 v) s)%Q).
  { intros s. unfold edge_dot, w. rewrite map2_firstn. apply qdot_linear.
    rewrite !firstn_length. lia. }
  assert (ET : forall s, (edge_dot (skipn (length u - 5) w) s ==
               a * edge_dot (skipn (length u - 5) u) s + b * edge_dot (skipn (length u - 5) v) s)%Q).
  { intros s. unfold edge_dot, w. rewrite map2_skipn by exact HL. apply qdot_linear.
    rewrite !skipn_length. lia. }
  destruct (Nat.ltb_spec i 2) as [L|L].
  - destruct i as [|[|i]]; [| |lia]; cbn [nth_error option_map] in Hd, Hdu, Hdv;
      apply Some_inj in Hd; apply Some_inj in Hdu; apply Some_inj in Hdv; subst d du dv; rewrite ED; field; exact Hdt.
  - destruct (Nat.ltb_spec i (2 + (length u - 4))) as [L2|L2].
    + assert (B : forall (y : list Q) k, length y = length u -> k < 5 ->
                  exists z, nth_error y (i - 2 + k) = Some z).
      { intros y k Hy Hk. destruct (nth_error y (i - 2 + k)) eqn:E; [eauto|].
        apply nth_error_None in E. lia. }
      assert (BW : forall k x y, nth_error u (i - 2 + k) = Some x -> nth_error v (i - 2 + k) = Some y ->
                   nth_error w (i - 2 + k) = Some (a * x + b * y)%Q).
      { intros k x y H1 H2. unfold w. now rewrite nth_error_map2, H1, H2. }
      destruct (B u 0 eq_refl ltac:(lia)) as [u0 U0]. destruct (B u 1 eq_refl ltac:(lia)) as [u1 U1].
      destruct (B u 3 eq_refl ltac:(lia)) as [u3 U3]. destruct (B u 4 eq_refl ltac:(lia)) as [u4 U4].
      destruct (B v 0 ltac:(lia) ltac:(lia)) as [v0 V0]. destruct (B v 1 ltac:(lia) ltac:(lia)) as [v1 V1].
      destruct (B v 3 ltac:(lia) ltac:(lia)) as [v3 V3]. destruct (B v 4 ltac:(lia) ltac:(lia)) as [v4 V4].
      generalize (BW _ _ _ U0 V0) (BW _ _ _ U1 V1) (BW _ _ _ U3 V3) (BW _ _ _ U4 V4).
      rewrite Nat.add_0_r in *. intros W0 W1 W3 W4.
      rewrite (deriv_interior_nth w _ _ _ _ _ ltac:(lia) W0 W1 W3 W4) in Hd.
      rewrite (deriv_interior_nth u _ _ _ _ _ ltac:(lia) U0 U1 U3 U4) in Hdu.
      rewrite (deriv_interior_nth v _ _ _ _ _ ltac:(lia) V0 V1 V3 V4) in Hdv.
      cbn [option_map] in *. apply Some_inj in Hd; apply Some_inj in Hdu; apply Some_inj in Hdv; subst d du dv.
      field. exact Hdt.
    + destruct (i - 2 - (length u - 4)) as [|[|k]]; cbn [nth_error option_map] in Hd, Hdu, Hdv;
        [| |destruct k; discriminate];
        apply Some_inj in Hd; apply Some_inj in Hdu; apply Some_inj in Hdv; subst d du dv; rewrite ET;
        rewrite ?HL; field; exact Hdt.
Qed.
