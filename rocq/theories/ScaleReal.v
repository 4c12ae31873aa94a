From Coq Require Import Reals Lra QArith Qreals Psatz.
From Verif Require Import Base EccModel ScaleSpec.
Open Scope R_scope.
Lemma sqrt_scale k x : 0 <= k -> sqrt (k * x) = sqrt k * sqrt x.
Proof.
  intros Hk. destruct (Rle_lt_dec 0 x) as [H|H]; [apply sqrt_mult; assumption|].
  rewrite (sqrt_neg_0 x) by lra. rewrite Rmult_0_r. apply sqrt_neg_0. nra.
Qed.
Lemma e_omega_scale k x y : 0 < k -> e_omega_gw (k * x) (k * y) = e_omega_gw x y.
Proof.
  intros Hk. unfold e_omega_gw. rewrite !sqrt_scale by lra. assert (S := sqrt_lt_R0 k Hk). pose proof (sqrt_pos x). pose proof (sqrt_pos y).
  destruct (Req_dec (sqrt x + sqrt y) 0) as [E|E].
  - assert (X : sqrt x = 0) by lra. assert (Y : sqrt y = 0) by lra. rewrite X, Y. unfold Rdiv. ring.
  - field. repeat split; try exact E; nra.
Qed.
Lemma ecc_ratio_real a : (0 < a)%Q -> ecc_ratio a (fun w v => ecc_from_extrema (Q2R w) (Q2R v)).
Proof.
  intros Ha w v w' v' Hw Hv. assert (N : ~ (a == 0)%Q) by (intro K; rewrite K in Ha; discriminate Ha).
  apply Qlt_Rlt in Ha. rewrite RMicromega.Q2R_0 in Ha.
  unfold same_freq in *. rewrite (Qeq_eqR _ _ Hw), (Qeq_eqR _ _ Hv), !Q2R_div by exact N. unfold ecc_from_extrema. f_equal.
  unfold Rdiv. rewrite !(Rmult_comm _ (/ Q2R a)). apply e_omega_scale. apply Rinv_0_lt_compat. exact Ha.
Qed.
