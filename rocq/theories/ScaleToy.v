(** The example waveform in other units, and example interpolants that meet what is asked of them. *)
From Coq Require Import Lia Lqa Qfield.
From Verif Require Import Base BaseLemmas UtilsModel UtilsSpec UtilsLemmas ExtremaModel RationalModel MeasureModel MeasureSpec ScaleSpec ScaleLemmas Toy.
Open Scope nat_scope.

Lemma scan_affine p q r s xp xp' : (0 < p)%Q -> LT p q xp xp' -> increasing xp -> xp <> [] -> forall fp fp' x x', LT r s fp fp' ->
  length xp = length fp -> T p q x x' -> T r s (interp_scan x xp fp) (interp_scan x' xp' fp').
Proof.
  intros Hp. induction 1 as [|u u' l l' Hu H IH]; intros Hi Hne fp fp' x x' Hf Hl Hx; [contradiction|].
  destruct Hf as [|f f' fp fp' Hf0 Hf]; [discriminate|].
  destruct H as [|v v' l l' Hv H]; [exact Hf0|]. destruct Hf as [|g g' fp fp' Hg Hf]; [discriminate|].
  assert (L : (u < v)%Q) by (exact (Hi 0 1 u v ltac:(lia) eq_refl eq_refl)).
  assert (Hi' : increasing (v :: l)) by (intros i j y z Hij A B; exact (Hi (S i) (S j) y z ltac:(lia) A B)).
  specialize (IH Hi' ltac:(discriminate) (g :: fp) (g' :: fp') x x' (Forall2_cons _ _ Hg Hf)).
  change (interp_scan x (u :: v :: l) (f :: g :: fp)) with (if Qlt_bool x v then (f + (g - f) / (v - u) * (x - u))%Q else interp_scan x (v :: l) (g :: fp)).
  change (interp_scan x' (u' :: v' :: l') (f' :: g' :: fp')) with (if Qlt_bool x' v' then (f' + (g' - f') / (v' - u') * (x' - u'))%Q else interp_scan x' (v' :: l') (g' :: fp')).
  rewrite (T_lt p q x v x' v' Hp Hx Hv). destruct (Qlt_bool x v).
  - assert (~ (v - u == 0)%Q) by lra. assert (~ (p == 0)%Q) by lra. assert (~ (p * v + q - (p * u + q) == 0)%Q).
    { intro K. assert (K' : (p * (v - u) == 0)%Q) by lra. apply Qmult_integral in K'. tauto. }
    unfold same_time in *. rewrite Hf0, Hg, Hv, Hu, Hx. field. tauto.
  - apply IH; [cbn in Hl |- *; lia|exact Hx].
Qed.
Lemma lin_affine : spline_affine lin.
Proof.
  intros p q r s x y k t x' y' t' Hp Hr Hi Hl Hk Hx Hy Ht. unfold lin, np_interp.
  assert (N : x <> []) by (destruct x; [cbn in Hk; lia|discriminate]).
  pose proof (scan_affine p q r s x x' Hp Hx Hi N y y' t t' Hy Hl Ht) as K.
  destruct Hx as [|u u' l l' Hu Hx]; [contradiction|]. destruct Hy as [|v v' m m' Hv Hy]; [discriminate|].
  rewrite (T_lt p q t u t' u' Hp Ht Hu). destruct (Qlt_bool t u); [exact Hv|exact K].
Qed.

Definition toy_ecc (wp wa : Q) : Q := Qred ((wp - wa) / (wp + wa)).
Lemma toy_ecc_ratio a : (0 < a)%Q -> ecc_ratio a toy_ecc.
Proof.
  intros Ha w v w' v' Hw Hv. unfold toy_ecc. apply Qred_complete. unfold same_freq in *. rewrite Hw, Hv.
  assert (~ (a == 0)%Q) by lra.
  destruct (Qeq_dec (w + v) 0) as [E|E].
  - assert (E' : (w / a + v / a == 0)%Q) by (transitivity ((w + v) / a)%Q; [field; assumption|rewrite E; field; assumption]).
    unfold Qdiv at 1. rewrite E'. unfold Qdiv at 3. rewrite E. cbn. ring.
  - field. tauto.
Qed.
Definition toy_slope (t : list Q) (e : list Q) : list bool := map (fun d => Qlt_bool 0 d) (qdiff e).
Lemma toy_slope_affine a b : slope_affine a b toy_slope.
Proof. intros t t' e _. reflexivity. Qed.

Definition times2 := map (fun t : Q => Qred (2 * t + 100)).
Definition freqs2 := map (fun w : Q => Qred (w / 2)).
Lemma times2_same l : same_times 2 100 l (times2 l).
Proof. induction l; constructor; [|assumption]. unfold same_time. apply Qred_correct. Qed.
Lemma freqs2_same l : same_freqs 2 l (freqs2 l).
Proof. induction l; constructor; [|assumption]. unfold same_freq. apply Qred_correct. Qed.
(** The same object with times doubled and counted from -50. *)
Definition other_units (c : config) : config :=
  {| c_t := times2 (c_t c); c_data_t := times2 (c_data_t c); c_phase := c_phase c; c_omega := freqs2 (c_omega c);
     c_ref := match c_ref c with TimeRef l => TimeRef (times2 l) | FreqRef l => FreqRef (freqs2 l) end; c_scalar := c_scalar c;
     c_precessing := c_precessing c; c_filtered := c_filtered c; c_midpoints := c_midpoints c; c_return_zero := c_return_zero c;
     c_interp := c_interp c; c_average := c_average c; c_use_only := c_use_only c;
     c_special := c_special c; c_general := c_general c;
     c_zeroecc := match c_zeroecc c with Some z => Some (times2 (fst z), freqs2 (snd z)) | None => None end |}.
Lemma other_units_same c : same_config 2 100 c (other_units c).
Proof.
  constructor; cbn; try apply times2_same; try apply freqs2_same; try reflexivity.
  - exists 0%Q. induction (c_phase c); constructor; [ring|assumption].
  - destruct (c_ref c); constructor; [apply times2_same|apply freqs2_same].
  - destruct (c_zeroecc c); constructor. cbn. split; [apply times2_same|apply freqs2_same].
  - split; reflexivity.
Qed.
Definition unit_measure level c := measure_ecc toy_ecc 0%Q (fun e => Qlt_bool e 0) toy_find lin lin3 (fun _ _ _ => Err LinAlgError) toy_slope level c (fresh None).
Definition unit_ops level c os := fst (run_ops toy_ecc 0%Q (fun e => Qlt_bool e 0) toy_find lin lin3 (fun _ _ _ => Err LinAlgError) toy_slope level c os (fresh None)).
