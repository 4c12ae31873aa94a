(** Proofs about the low-pass mask. *)
From Coq Require Import Reals Lra List.
From Verif Require Import MaskModel.
Open Scope R_scope.

(** position in the transition band, clipped to [0, 1] *)
Definition clip (x : R) : R := Rmin 1 (Rmax 0 x).
Lemma mask_clip fc w f : 0 < fc -> 0 < w ->
  mask_at fc w f = 1 / 2 * (1 + cos (PI * clip ((f - fc * (1 - w)) / (2 * fc * w)))).
Proof.
  intros Hf Hw. assert (P : 0 < fc * w) by now apply Rmult_lt_0_compat. unfold mask_at.
  replace (fc * (1 + w) - fc * (1 - w)) with (2 * fc * w) by ring.
  set (x := (f - fc * (1 - w)) / (2 * fc * w)).
  assert (X : x * (2 * fc * w) = f - fc * (1 - w)). { unfold x. field. lra. }
  unfold clip. destruct (Rlt_dec (fc * (1 + w)) f) as [H|H].
  - assert (1 < x). { apply Rmult_lt_reg_r with (2 * fc * w); [lra|]. rewrite X. lra. }
    rewrite Rmax_right by lra. rewrite Rmin_left by lra. rewrite Rmult_1_r, cos_PI. lra.
  - destruct (Rle_dec (fc * (1 - w)) f) as [H2|H2].
    + assert (0 <= x). { apply Rmult_le_reg_r with (2 * fc * w); [lra|]. rewrite X. lra. }
      assert (x <= 1). { apply Rmult_le_reg_r with (2 * fc * w); [lra|]. rewrite X. lra. }
      rewrite Rmax_right by lra. rewrite Rmin_right by lra. do 3 f_equal. unfold x. field. lra.
    + assert (x < 0). { apply Rmult_lt_reg_r with (2 * fc * w); [lra|]. rewrite X. lra. }
      rewrite Rmax_left by lra. rewrite Rmin_right by lra. rewrite Rmult_0_r, cos_0. lra.
Qed.
Lemma clip_range x : 0 <= clip x <= 1.
Proof. unfold clip. split; [apply Rmin_glb; [lra|apply Rmax_l]|apply Rmin_l]. Qed.
Lemma clip_mono x y : x <= y -> clip x <= clip y.
Proof. intros H. unfold clip. apply Rle_min_compat_l. now apply Rle_max_compat_l. Qed.
Lemma mask_range fc w f : 0 < fc -> 0 < w -> 0 <= mask_at fc w f <= 1.
Proof. intros Hf Hw. rewrite mask_clip by assumption. destruct (COS_bound (PI * clip ((f - fc * (1 - w)) / (2 * fc * w)))). lra. Qed.
Lemma mask_pass fc w f : 0 < fc -> 0 < w -> f <= fc * (1 - w) -> mask_at fc w f = 1.
Proof.
  intros Hf Hw H. assert (P : 0 < fc * w) by now apply Rmult_lt_0_compat. unfold mask_at. destruct (Rlt_dec _ f) as [A|A]; [lra|]. destruct (Rle_dec _ f) as [B|B]; [|reflexivity].
  replace (f - fc * (1 - w)) with 0 by lra. unfold Rdiv. rewrite Rmult_0_r, Rmult_0_l, cos_0. lra.
Qed.
Lemma mask_stop fc w f : 0 < fc -> 0 < w -> fc * (1 + w) <= f -> mask_at fc w f = 0.
Proof.
  intros Hf Hw H. assert (P : 0 < fc * w) by now apply Rmult_lt_0_compat. rewrite mask_clip by assumption.
  replace (clip ((f - fc * (1 - w)) / (2 * fc * w))) with 1; [rewrite Rmult_1_r, cos_PI; lra|].
  assert (1 <= (f - fc * (1 - w)) / (2 * fc * w)).
  { apply Rmult_le_reg_r with (2 * fc * w); [lra|]. replace ((f - fc * (1 - w)) / (2 * fc * w) * (2 * fc * w)) with (f - fc * (1 - w)) by (field; split; lra). lra. }
  unfold clip. rewrite Rmax_right by lra. now rewrite Rmin_left by lra.
Qed.
Lemma mask_half fc w : 0 < fc -> 0 < w -> mask_at fc w fc = 1 / 2.
Proof.
  intros Hf Hw. assert (P : 0 < fc * w) by now apply Rmult_lt_0_compat. rewrite mask_clip by assumption.
  replace ((fc - fc * (1 - w)) / (2 * fc * w)) with (1 / 2) by (field; lra).
  unfold clip. rewrite Rmax_right by lra. rewrite Rmin_right by lra.
  replace (PI * (1 / 2)) with (PI / 2) by lra. rewrite cos_PI2. lra.
Qed.
Lemma mask_decreasing fc w f g : 0 < fc -> 0 < w -> f <= g -> mask_at fc w g <= mask_at fc w f.
Proof.
  intros Hf Hw H. assert (P : 0 < fc * w) by now apply Rmult_lt_0_compat. rewrite !mask_clip by assumption.
  set (x := clip ((f - fc * (1 - w)) / (2 * fc * w))). set (y := clip ((g - fc * (1 - w)) / (2 * fc * w))).
  assert (x <= y). { apply clip_mono. unfold Rdiv. apply Rmult_le_compat_r; [|lra]. left. apply Rinv_0_lt_compat. lra. }
  assert (X := clip_range ((f - fc * (1 - w)) / (2 * fc * w))). fold x in X.
  assert (Y := clip_range ((g - fc * (1 - w)) / (2 * fc * w))). fold y in Y.
  assert (PP := PI_RGT_0).
  assert (cos (PI * y) <= cos (PI * x)); [|lra].
  assert (B : forall z, 0 <= z <= 1 -> 0 <= PI * z <= PI).
  { intros z Hz. split; [apply Rmult_le_pos; lra|]. rewrite <- (Rmult_1_r PI) at 2. apply Rmult_le_compat_l; lra. }
  apply cos_decr_1; try apply B; auto. apply Rmult_le_compat_l; lra.
Qed.
Lemma continuity_pt_ext f g x : (forall y, f y = g y) -> continuity_pt f x -> continuity_pt g x.
Proof. intros E H eps He. destruct (H eps He) as (d & Hd & D). exists d. split; [exact Hd|]. intros y Hy. rewrite <- !E. now apply D. Qed.
Lemma clip_continuous : continuity clip.
Proof.
  assert (E : forall x, clip x = / 2 * (1 + / 2 * (x + Rabs x) - Rabs (1 - / 2 * (x + Rabs x)))).
  { intros x. unfold clip. destruct (Rle_lt_dec 0 x) as [H|H].
    - rewrite Rmax_right by lra. rewrite (Rabs_pos_eq x) by lra. destruct (Rle_lt_dec 1 x).
      + rewrite Rmin_left by lra. rewrite Rabs_left1; lra.
      + rewrite Rmin_right by lra. rewrite Rabs_pos_eq; lra.
    - rewrite Rmax_left by lra. rewrite (Rabs_left1 x) by lra. rewrite Rmin_right by lra.
      replace (1 - / 2 * (x + - x)) with 1 by lra. rewrite Rabs_R1. lra. }
  intros x. apply continuity_pt_ext with (f := fun x => / 2 * (1 + / 2 * (x + Rabs x) - Rabs (1 - / 2 * (x + Rabs x)))).
  { intros y. symmetry. apply E. }
  assert (A : continuity (fun x => Rabs x)) by apply Rcontinuity_abs.
  assert (I : continuity (fun x : R => x)) by (apply derivable_continuous, derivable_id).
  assert (K : forall c, continuity (fun _ : R => c)) by (intros c; apply derivable_continuous, derivable_const).
  assert (B : continuity (fun x => / 2 * (x + Rabs x))) by (apply (continuity_mult (fun _ => / 2) (fun x => x + Rabs x)); [apply K|now apply (continuity_plus (fun x => x) Rabs)]).
  assert (D : continuity (fun x => 1 - / 2 * (x + Rabs x))) by (apply (continuity_minus (fun _ => 1) (fun x => / 2 * (x + Rabs x))); auto).
  assert (G : continuity (fun x => Rabs (1 - / 2 * (x + Rabs x)))) by apply (continuity_comp _ _ D A).
  assert (J : continuity (fun x => 1 + / 2 * (x + Rabs x))) by (apply (continuity_plus (fun _ => 1) (fun x => / 2 * (x + Rabs x))); auto).
  apply (continuity_mult (fun _ => / 2) (fun x => 1 + / 2 * (x + Rabs x) - Rabs (1 - / 2 * (x + Rabs x)))); [apply K|].
  now apply (continuity_minus (fun x => 1 + / 2 * (x + Rabs x)) (fun x => Rabs (1 - / 2 * (x + Rabs x)))).
Qed.
Lemma mask_continuous fc w : 0 < fc -> 0 < w -> continuity (mask_at fc w).
Proof.
  intros Hf Hw x. apply continuity_pt_ext with (f := fun f => 1 / 2 * (1 + cos (PI * clip ((f - fc * (1 - w)) / (2 * fc * w))))).
  { intros f. symmetry. now apply mask_clip. }
  assert (I : continuity (fun x : R => x)) by (apply derivable_continuous, derivable_id).
  assert (K : forall c, continuity (fun _ : R => c)) by (intros c; apply derivable_continuous, derivable_const).
  assert (A : continuity (fun f => (f - fc * (1 - w)) * / (2 * fc * w))).
  { apply (continuity_mult (fun f => f - fc * (1 - w)) (fun _ => / (2 * fc * w))); [|apply K].
    apply (continuity_minus (fun f => f) (fun _ => fc * (1 - w))); auto. }
  assert (B := continuity_comp _ _ A clip_continuous). unfold comp in B.
  assert (D := continuity_mult _ _ (K PI) B). unfold mult_fct in D.
  assert (G := continuity_comp _ _ D continuity_cos). unfold comp in G.
  assert (H := continuity_plus _ _ (K 1) G). unfold plus_fct in H.
  exact (continuity_mult _ _ (K (1 / 2)) H x).
Qed.
Lemma mask_all fc w fs : 0 < fc -> 0 < w ->
  length (lowpass_mask fs fc w) = length fs /\
  (forall i f, nth_error fs i = Some f -> exists m, nth_error (lowpass_mask fs fc w) i = Some m /\ 0 <= m <= 1 /\
     (f <= fc * (1 - w) -> m = 1) /\ (fc * (1 + w) <= f -> m = 0) /\ (f = fc -> m = 1 / 2)) /\
  (forall i j f g m n, nth_error fs i = Some f -> nth_error fs j = Some g -> nth_error (lowpass_mask fs fc w) i = Some m ->
     nth_error (lowpass_mask fs fc w) j = Some n -> f <= g -> n <= m).
Proof.
  intros Hf Hw. unfold lowpass_mask. split; [apply map_length|]. split.
  - intros i f E. exists (mask_at fc w f). rewrite nth_error_map, E. split; [reflexivity|]. split; [now apply mask_range|].
    split; [now apply mask_pass|]. split; [now apply mask_stop|]. intros ->. now apply mask_half.
  - intros i j f g m n E1 E2 M1 M2 H. rewrite nth_error_map, E1 in M1. rewrite nth_error_map, E2 in M2.
    injection M1 as <-. injection M2 as <-. now apply mask_decreasing.
Qed.
