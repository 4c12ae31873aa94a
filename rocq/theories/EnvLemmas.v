(** Lemmas for EnvModel.v. *)
From Coq Require Import Reals Lra.
From Verif Require Import EnvModel.
Open Scope R_scope.

Lemma fit_form t0 f0 f1 T t : fit_value t0 f0 f1 T t = f0 * exp (fit_exponent t0 f0 f1 T * (ln (T - t) - ln (T - t0))).
Proof.
  unfold fit_value, fit_amplitude, Rpower. rewrite Rmult_assoc, <- exp_plus. f_equal. f_equal. ring.
Qed.
Lemma fit_at_centre t0 f0 f1 T : fit_value t0 f0 f1 T t0 = f0.
Proof. rewrite fit_form. replace (fit_exponent t0 f0 f1 T * (ln (T - t0) - ln (T - t0))) with 0 by ring. rewrite exp_0. ring. Qed.
Lemma ln_shift_lim T t : t < T -> derivable_pt_lim (fun s => ln (T - s)) t (- / (T - t)).
Proof.
  intros H. replace (- / (T - t)) with (/ (T - t) * (0 - 1)) by ring.
  apply (derivable_pt_lim_comp (fun s => T - s) ln).
  - apply (derivable_pt_lim_minus (fun _ => T) (fun s => s)); [apply derivable_pt_lim_const|apply derivable_pt_lim_id].
  - apply derivable_pt_lim_ln. lra.
Qed.
Lemma derivable_pt_lim_same f g x l : (forall y, f y = g y) -> derivable_pt_lim f x l -> derivable_pt_lim g x l.
Proof. intros E H e He. destruct (H e He) as [d Hd]. exists d. intros h H1 H2. rewrite <- !E. auto. Qed.
Lemma fit_lim t0 f0 f1 T t : t < T ->
  derivable_pt_lim (fit_value t0 f0 f1 T) t (fit_value t0 f0 f1 T t * - (fit_exponent t0 f0 f1 T / (T - t))).
Proof.
  intros H. set (n := fit_exponent t0 f0 f1 T).
  apply derivable_pt_lim_same with (f := mult_real_fct f0 (comp exp (mult_real_fct n (fun s => ln (T - s) - ln (T - t0))))).
  { intros y. rewrite fit_form. reflexivity. }
  rewrite fit_form. fold n.
  replace (f0 * exp (n * (ln (T - t) - ln (T - t0))) * - (n / (T - t)))
    with (f0 * (exp (mult_real_fct n (fun s => ln (T - s) - ln (T - t0)) t) * (n * (- / (T - t) - 0))))
    by (unfold mult_real_fct, Rdiv; ring).
  apply derivable_pt_lim_scal, derivable_pt_lim_comp; [|apply derivable_pt_lim_exp].
  apply derivable_pt_lim_scal.
  apply (derivable_pt_lim_minus (fun s => ln (T - s)) (fun _ => ln (T - t0))); [now apply ln_shift_lim|apply derivable_pt_lim_const].
Qed.
Lemma fit_slope t0 f0 f1 T : t0 < T -> f0 <> 0 -> derivable_pt_lim (fit_value t0 f0 f1 T) t0 f1.
Proof.
  intros H N. assert (L := fit_lim t0 f0 f1 T t0 H). rewrite fit_at_centre in L.
  replace (f0 * - (fit_exponent t0 f0 f1 T / (T - t0))) with f1 in L; [exact L|]. unfold fit_exponent. field. split; lra.
Qed.
Lemma fit_positive t0 f0 f1 T t : 0 < f0 -> 0 < fit_value t0 f0 f1 T t.
Proof. intros H. rewrite fit_form. apply Rmult_lt_0_compat; [exact H|apply exp_pos]. Qed.
Lemma fit_increasing t0 f0 f1 T s t : 0 < f0 -> 0 < f1 -> t0 < T -> s < t -> t < T -> fit_value t0 f0 f1 T s < fit_value t0 f0 f1 T t.
Proof.
  intros H0 H1 HT Hs Ht. rewrite !fit_form. apply Rmult_lt_compat_l; [exact H0|]. apply exp_increasing.
  assert (N : 0 < - fit_exponent t0 f0 f1 T).
  { unfold fit_exponent, Rdiv. replace (- (- (T - t0) * f1 * / f0)) with ((T - t0) * f1 * / f0) by ring.
    apply Rmult_lt_0_compat; [apply Rmult_lt_0_compat; lra|now apply Rinv_0_lt_compat]. }
  assert (L : ln (T - t) < ln (T - s)) by (apply ln_increasing; lra). nra.
Qed.
(** The parametrisation reaches every A (T-t)^n with A, n arbitrary (A nonzero). *)
Lemma fit_reaches t0 A n T t : t0 < T -> A <> 0 ->
  fit_value t0 (A * Rpower (T - t0) n) (- n * A * Rpower (T - t0) n / (T - t0)) T t = A * Rpower (T - t) n.
Proof.
  intros H N. assert (P : Rpower (T - t0) n <> 0) by (apply Rgt_not_eq, exp_pos).
  assert (E : fit_exponent t0 (A * Rpower (T - t0) n) (- n * A * Rpower (T - t0) n / (T - t0)) T = n).
  { unfold fit_exponent. field. repeat split; auto; lra. }
  rewrite fit_form, E. unfold Rpower. rewrite Rmult_assoc, <- exp_plus. f_equal. f_equal. ring.
Qed.
Lemma secular_same t0 f0 f1 T t : secular_value t0 f0 f1 T t = fit_value t0 f0 f1 T t.
Proof.
  unfold secular_value, fit_value, fit_amplitude. replace (secular_exponent t0 f0 f1 T) with (fit_exponent t0 f0 f1 T); [reflexivity|].
  unfold secular_exponent, fit_exponent, Rdiv. ring.
Qed.
Lemma fit_centre t0 f0 f1 T : t0 < T -> f0 <> 0 -> fit_value t0 f0 f1 T t0 = f0 /\ derivable_pt_lim (fit_value t0 f0 f1 T) t0 f1.
Proof. intros H N. exact (conj (fit_at_centre t0 f0 f1 T) (fit_slope t0 f0 f1 T H N)). Qed.
Lemma fit_rises t0 f0 f1 T s t : 0 < f0 -> 0 < f1 -> t0 < T -> s < t -> t < T -> 0 < fit_value t0 f0 f1 T s < fit_value t0 f0 f1 T t.
Proof. intros. split; [now apply fit_positive|now apply fit_increasing]. Qed.
