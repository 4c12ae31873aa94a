From Coq Require Import Lia Lqa Qfield.
From Verif Require Import Base BaseLemmas UtilsModel UtilsSpec UtilsLemmas ExtremaModel RationalModel MeasureModel ScaleSpec.
Open Scope nat_scope.

Lemma qmul_lt a x y : (0 < a)%Q -> (x < y)%Q -> (a * x < a * y)%Q.
Proof. intros Ha H. rewrite !(Qmult_comm a). apply Qmult_lt_compat_r; assumption. Qed.
Lemma qmul_le a x y : (0 < a)%Q -> (x <= y)%Q -> (a * x <= a * y)%Q.
Proof. intros Ha H. rewrite !(Qmult_comm a). apply Qmult_le_compat_r; lra. Qed.

Ltac fld := field; repeat split; first [assumption | (intro; lra) | idtac].
Notation T := same_time.
Notation LT := same_times.

Lemma T_le p q x y x' y' : (0 < p)%Q -> T p q x x' -> T p q y y' -> Qle_bool x' y' = Qle_bool x y.
Proof.
  unfold same_time. intros Hp Hx Hy. apply Bool.eq_true_iff_eq. rewrite !Qle_bool_iff. rewrite Hx, Hy. split; intros H.
  - destruct (Qlt_le_dec y x) as [G|G]; [|exact G]. apply (qmul_lt p) in G; [|exact Hp]. lra.
  - apply (qmul_le p) in H; [|exact Hp]. lra.
Qed.
Lemma T_lt p q x y x' y' : (0 < p)%Q -> T p q x x' -> T p q y y' -> Qlt_bool x' y' = Qlt_bool x y.
Proof. intros Hp Hx Hy. unfold Qlt_bool. f_equal. eapply T_le; eassumption. Qed.
Lemma T_zero p : T p 0 0 0.
Proof. unfold same_time. lra. Qed.
Lemma T_eq0 p x x' : (0 < p)%Q -> T p 0 x x' -> Qeq_bool x' 0 = Qeq_bool x 0.
Proof.
  unfold same_time. intros Hp H. apply Bool.eq_true_iff_eq. rewrite !Qeq_bool_iff. rewrite H. split; intros G.
  - assert (p * x == 0)%Q by lra. apply Qmult_integral in H0. destruct H0; lra.
  - rewrite G. lra.
Qed.
Lemma T_minus p q x y x' y' : T p q x x' -> T p q y y' -> T p 0 (x - y) (x' - y').
Proof. unfold same_time. intros -> ->. ring. Qed.
Lemma T_plus0 p q x y x' y' : T p q x x' -> T p 0 y y' -> T p q (x + y) (x' + y').
Proof. unfold same_time. intros -> ->. ring. Qed.
Lemma T_max p q x y x' y' : (0 < p)%Q -> T p q x x' -> T p q y y' -> T p q (Qmaxb x y) (Qmaxb x' y').
Proof. intros Hp Hx Hy. unfold Qmaxb. rewrite (T_le p q x y x' y' Hp Hx Hy). destruct (Qle_bool x y); assumption. Qed.
Lemma T_min p q x y x' y' : (0 < p)%Q -> T p q x x' -> T p q y y' -> T p q (Qminb x y) (Qminb x' y').
Proof. intros Hp Hx Hy. unfold Qminb. rewrite (T_le p q x y x' y' Hp Hx Hy). destruct (Qle_bool x y); assumption. Qed.
Lemma T_mid p q x y x' y' : T p q x x' -> T p q y y' -> T p q ((1 # 2) * (x + y)) ((1 # 2) * (x' + y')).
Proof. unfold same_time. intros -> ->. field. Qed.
Lemma T_div p x x' d : ~ (d == 0)%Q -> T p 0 x x' -> T p 0 (x / d) (x' / d).
Proof. unfold same_time. intros Hd ->. field. exact Hd. Qed.
Lemma freq_T a w w' : ~ (a == 0)%Q -> same_freq a w w' <-> T (1 / a) 0 w w'.
Proof. unfold same_freq, same_time. intros Ha. split; intros ->; field; exact Ha. Qed.
Lemma freqs_T a l l' : ~ (a == 0)%Q -> same_freqs a l l' <-> LT (1 / a) 0 l l'.
Proof.
  intros Ha. unfold same_freqs, same_times. split; induction 1; constructor; auto; apply (freq_T a); assumption.
Qed.
Lemma inv_pos a : (0 < a)%Q -> (0 < 1 / a)%Q.
Proof. intros Ha. apply Qlt_shift_div_l; lra. Qed.

(** ** Lists *)
Section Lists.
  Context {A A' : Type} (R : A -> A' -> Prop).
  Lemma f2_length l l' : Forall2 R l l' -> length l' = length l.
  Proof. induction 1; cbn; congruence. Qed.
  Lemma f2_get l l' i : Forall2 R l l' -> same_res R (get l i) (get l' i).
  Proof.
    unfold get. intros H. revert i. induction H as [|x x' l l' Hx H IH]; intros i.
    - destruct i; cbn; constructor; left; reflexivity.
    - destruct i; cbn; [constructor; exact Hx|apply IH].
  Qed.
  Lemma f2_last l l' : Forall2 R l l' -> same_res R (last_of l) (last_of l').
  Proof.
    intros H. unfold last_of, zget. rewrite (f2_length _ _ H). destruct (0 <=? -1)%Z; [apply f2_get; exact H|].
    destruct (0 <=? Z.of_nat (length l) + -1)%Z; [apply f2_get; exact H|constructor; left; reflexivity].
  Qed.
  Lemma f2_filter p p' l l' : (forall x x', R x x' -> p' x' = p x) -> Forall2 R l l' -> Forall2 R (filter p l) (filter p' l').
  Proof.
    intros Hp. induction 1 as [|x x' l l' Hx H IH]; cbn; [constructor|]. rewrite (Hp x x' Hx). destruct (p x); [constructor|]; assumption.
  Qed.
  Lemma f2_existsb p p' l l' : (forall x x', R x x' -> p' x' = p x) -> Forall2 R l l' -> existsb p' l' = existsb p l.
  Proof. intros Hp. induction 1 as [|x x' l l' Hx H IH]; cbn; [reflexivity|]. rewrite (Hp x x' Hx), IH. reflexivity. Qed.
  Lemma f2_tl l l' : Forall2 R l l' -> Forall2 R (tl l) (tl l').
  Proof. destruct 1; cbn; [constructor|assumption]. Qed.
  Lemma f2_removelast l l' : Forall2 R l l' -> Forall2 R (removelast l) (removelast l').
  Proof.
    induction 1 as [|x x' l l' Hx H IH]; [constructor|]. destruct H as [|y y' l l' Hy H]; [constructor|].
    cbn [removelast] in IH |- *. constructor; [exact Hx|exact IH].
  Qed.
End Lists.
Lemma f2_map {A A' B B'} (R : A -> A' -> Prop) (S : B -> B' -> Prop) f f' l l' :
  (forall x x', R x x' -> S (f x) (f' x')) -> Forall2 R l l' -> Forall2 S (map f l) (map f' l').
Proof. intros H. induction 1; cbn; constructor; auto. Qed.
Lemma f2_map2 {A A' B B' C C'} (R : A -> A' -> Prop) (S : B -> B' -> Prop) (U : C -> C' -> Prop) f f' l l' m m' :
  (forall x x' y y', R x x' -> S y y' -> U (f x y) (f' x' y')) -> Forall2 R l l' -> Forall2 S m m' ->
  Forall2 U (map2 f l m) (map2 f' l' m').
Proof.
  intros H Hl. revert m m'. induction Hl as [|x x' l l' Hx Hl IH]; intros m m' Hm; cbn; [constructor|].
  destruct Hm; constructor; auto.
Qed.
Lemma f2_combine {A A' B B'} (R : A -> A' -> Prop) (S : B -> B' -> Prop) l l' m m' :
  Forall2 R l l' -> Forall2 S m m' -> Forall2 (fun z z' => R (fst z) (fst z') /\ S (snd z) (snd z')) (combine l m) (combine l' m').
Proof.
  intros Hl. revert m m'. induction Hl as [|x x' l l' Hx Hl IH]; intros m m' Hm; cbn; [constructor|].
  destruct Hm; constructor; auto.
Qed.
Lemma f2_refl {A} (R : A -> A -> Prop) l : (forall x, R x x) -> Forall2 R l l.
Proof. intros H. induction l; constructor; auto. Qed.
Lemma f2_eq {A} (l l' : list A) : Forall2 (fun x y => y = x) l l' -> l' = l.
Proof. induction 1; congruence. Qed.

Section Res.
  Lemma exn_refl e : same_exn e e.
  Proof. left. reflexivity. Qed.
  Lemma rb {A A' B B'} (R : A -> A' -> Prop) (S : B -> B' -> Prop) m m' f f' :
    same_res R m m' -> (forall x x', R x x' -> same_res S (f x) (f' x')) -> same_res S (bind m f) (bind m' f').
  Proof. intros [x x' H|e e' H] K; cbn; [apply K; exact H|constructor; exact H]. Qed.
  Lemma rmono {A A'} (R S : A -> A' -> Prop) m m' : (forall x x', R x x' -> S x x') -> same_res R m m' -> same_res S m m'.
  Proof. intros H [x x' K|e e' K]; constructor; auto. Qed.
End Res.
Ltac rerr := constructor; apply exn_refl.

Lemma r_gather {A A'} (R : A -> A' -> Prop) l l' idx : Forall2 R l l' -> same_res (Forall2 R) (gather l idx) (gather l' idx).
Proof.
  intros H. induction idx as [|i idx IH]; cbn; [constructor; constructor|].
  eapply rb; [apply f2_get; exact H|]. intros x x' Hx. eapply rb; [exact IH|]. intros y y' Hy. constructor. constructor; assumption.
Qed.
Lemma t_qdiff p q l l' : LT p q l l' -> LT p 0 (qdiff l) (qdiff l').
Proof.
  induction 1 as [|x x' l l' Hx H IH]; [constructor|]. destruct H as [|y y' l l' Hy H]; [constructor|].
  cbn [qdiff] in *. constructor; [eapply T_minus; eassumption|exact IH].
Qed.
Lemma t_minfrom p q l l' : (0 < p)%Q -> LT p q l l' -> forall m m', T p q m m' -> T p q (qmin_from m l) (qmin_from m' l').
Proof. intros Hp. induction 1 as [|x x' l l' Hx H IH]; intros m m' Hm; cbn; [exact Hm|]. apply IH. apply T_min; assumption. Qed.
Lemma t_maxfrom p q l l' : (0 < p)%Q -> LT p q l l' -> forall m m', T p q m m' -> T p q (qmax_from m l) (qmax_from m' l').
Proof. intros Hp. induction 1 as [|x x' l l' Hx H IH]; intros m m' Hm; cbn; [exact Hm|]. apply IH. apply T_max; assumption. Qed.
Lemma r_qmin p q l l' : (0 < p)%Q -> LT p q l l' -> same_res (T p q) (qmin l) (qmin l').
Proof. intros Hp [|x x' m m' Hx H]; cbn; [rerr|]. constructor. apply t_minfrom; assumption. Qed.
Lemma r_qmax p q l l' : (0 < p)%Q -> LT p q l l' -> same_res (T p q) (qmax l) (qmax l').
Proof. intros Hp [|x x' m m' Hx H]; cbn; [rerr|]. constructor. apply t_maxfrom; assumption. Qed.

Lemma t_arange_from p q s s' n : T p 0 s s' -> forall x x', T p q x x' -> LT p q (arange_from x s n) (arange_from x' s' n).
Proof. intros Hs. induction n as [|n IH]; intros x x' Hx; cbn; constructor; [exact Hx|]. apply IH. apply T_plus0; assumption. Qed.
Lemma r_arange p q x y s x' y' s' : (0 < p)%Q -> T p q x x' -> T p q y y' -> T p 0 s s' ->
  same_res (LT p q) (arange x y s) (arange x' y' s').
Proof.
  intros Hp Hx Hy Hs. unfold arange. rewrite (T_eq0 p s s' Hp Hs). destruct (Qeq_bool s 0) eqn:E; [rerr|].
  assert (G : ~ (s == 0)%Q) by (intro G; apply Qeq_bool_iff in G; congruence).
  constructor. replace (q_ceil ((y' - x') / s')) with (q_ceil ((y - x) / s)); [apply t_arange_from; assumption|].
  unfold q_ceil. apply Qceiling_comp. unfold same_time in *. rewrite Hx, Hy, Hs. fld.
Qed.
Lemma t_midpoints p q l l' : LT p q l l' -> LT p q (midpoints l) (midpoints l').
Proof.
  intros H. unfold midpoints. eapply f2_map2; [|apply f2_removelast; exact H|apply f2_tl; exact H].
  intros x x' y y' Hx Hy. apply T_mid; assumption.
Qed.
Lemma r_qdivs p l m m' : (0 < p)%Q -> LT p 0 m m' -> same_res (LT (1 / p) 0) (qdivs l m) (qdivs l m').
Proof.
  intros Hp H. unfold qdivs.
  rewrite (f2_existsb _ (fun y => Qeq_bool y 0) _ _ _ (fun x x' Hx => T_eq0 p x x' Hp Hx) H).
  destruct (existsb _ m) eqn:E; [rerr|]. constructor.
  assert (N : forall y, In y m -> ~ (y == 0)%Q).
  { intros y Hy G. apply Qeq_bool_iff in G. assert (existsb (fun y => Qeq_bool y 0) m = true) by (apply existsb_exists; eauto). congruence. }
  clear E. revert l. induction H as [|y y' m m' Hy H IH]; intros l; destruct l as [|x l]; cbn; constructor.
  - unfold same_time in *. rewrite Hy. field. split; [apply N; left; reflexivity|lra].
  - apply IH. intros z Hz. apply N. right. exact Hz.
Qed.

Lemma r_qdivs1 p l l' m m' : (0 < p)%Q -> LT 1 0 l l' -> LT p 0 m m' -> same_res (LT (1 / p) 0) (qdivs l m) (qdivs l' m').
Proof.
  intros Hp Hl H. unfold qdivs.
  rewrite (f2_existsb _ (fun y => Qeq_bool y 0) _ _ _ (fun x x' Hx => T_eq0 p x x' Hp Hx) H).
  destruct (existsb _ m) eqn:E; [rerr|]. constructor.
  assert (N : forall y, In y m -> ~ (y == 0)%Q).
  { intros y Hy G. apply Qeq_bool_iff in G. assert (existsb (fun y => Qeq_bool y 0) m = true) by (apply existsb_exists; eauto). congruence. }
  clear E. revert l l' Hl. induction H as [|y y' m m' Hy H IH]; intros l l' Hl; destruct Hl as [|x x' l l' Hx Hl]; cbn; constructor.
  - unfold same_time in *. rewrite Hx, Hy. field. split; [apply N; left; reflexivity|lra].
  - apply IH; [|exact Hl]. intros z Hz. apply N. right. exact Hz.
Qed.
(** Phases counted from another origin. *)
Lemma phases_T o l l' : same_phases o l l' -> exists k, LT 1 k l l'.
Proof.
  destruct o; cbn.
  - intros [k H]. exists k. unfold same_times. induction H; constructor; [|assumption]. unfold same_time. rewrite H. ring.
  - intros ->. exists 0%Q. unfold same_times. induction l; constructor; [|assumption]. unfold same_time. ring.
Qed.
Lemma T1_refl x : T 1 0 x x.
Proof. unfold same_time. ring. Qed.
Lemma T1_lt x x' y y' : T 1 0 x x' -> T 1 0 y y' -> Qlt_bool x' y' = Qlt_bool x y.
Proof. apply T_lt. reflexivity. Qed.
Lemma T1_abs x x' c : T 1 0 x x' -> T 1 0 (Qabs (x - c)) (Qabs (x' - c)).
Proof. unfold same_time. intros H. assert (E : (x' == x)%Q) by (rewrite H; ring). rewrite E. ring. Qed.

Definition PR p q r s (z z' : Q * Q) : Prop := T p q (fst z) (fst z') /\ T r s (snd z) (snd z').
Lemma t_insert p q r s z z' l l' : (0 < p)%Q -> PR p q r s z z' -> Forall2 (PR p q r s) l l' ->
  Forall2 (PR p q r s) (insert_pair z l) (insert_pair z' l').
Proof.
  intros Hp Hz. induction 1 as [|y y' l l' Hy H IH]; cbn; [repeat constructor; apply Hz|].
  rewrite (T_lt p q (fst z) (fst y) (fst z') (fst y')); [|exact Hp|apply Hz|apply Hy].
  destruct (Qlt_bool (fst z) (fst y)); [constructor; [exact Hz|constructor; assumption]|constructor; assumption].
Qed.
Lemma t_sort p q r s l l' : (0 < p)%Q -> Forall2 (PR p q r s) l l' -> Forall2 (PR p q r s) (sort_pairs l) (sort_pairs l').
Proof.
  intros Hp H. unfold sort_pairs.
  enough (K : forall u u', Forall2 (PR p q r s) u u' ->
    Forall2 (PR p q r s) (fold_left (fun acc z => insert_pair z acc) l u) (fold_left (fun acc z => insert_pair z acc) l' u')) by (apply K; constructor).
  induction H as [|z z' l l' Hz H IH]; intros u u' Hu; cbn; [exact Hu|]. apply IH. apply t_insert; assumption.
Qed.

Lemma t_interp_scan p q xp xp' : (0 < p)%Q -> LT p q xp xp' -> forall fp x x', T p q x x' ->
  (interp_scan x' xp' fp == interp_scan x xp fp)%Q.
Proof.
  intros Hp. induction 1 as [|u u' l l' Hu H IH]; intros fp x x' Hx; [destruct fp; reflexivity|].
  destruct H as [|v v' l l' Hv H]; [destruct fp; reflexivity|].
  destruct fp as [|f fp]; [reflexivity|]. destruct fp as [|g fp]; [reflexivity|].
  cbn [interp_scan] in *. rewrite (T_lt p q x v x' v' Hp Hx Hv). destruct (Qlt_bool x v).
  - destruct (Qeq_dec (v - u) 0) as [G|G].
    + assert (G' : (v' - u' == 0)%Q).
      { pose proof (T_minus p q v u v' u' Hv Hu) as K. unfold same_time in K. rewrite K, G. ring. }
      unfold Qdiv. rewrite G, G'. unfold Qinv at 1 2. cbn. ring.
    + unfold same_time in *. rewrite Hu, Hv, Hx. field. split; [|intro K]; [exact G|].
      assert (p * (v - u) == 0)%Q by lra. apply Qmult_integral in H0. destruct H0; [lra|contradiction].
  - apply (IH (g :: fp)). exact Hx.
Qed.
Lemma t_np_interp p q xp xp' fp x x' : (0 < p)%Q -> LT p q xp xp' -> T p q x x' -> (np_interp x' xp' fp == np_interp x xp fp)%Q.
Proof.
  intros Hp H Hx. unfold np_interp. pose proof (t_interp_scan p q xp xp' Hp H fp x x' Hx) as K.
  destruct H as [|u u' l l' Hu H]; [reflexivity|]. destruct fp as [|f fp]; [reflexivity|].
  rewrite (T_lt p q x u x' u' Hp Hx Hu). destruct (Qlt_bool x u); [reflexivity|exact K].
Qed.
Lemma qmod_comp x x' m : (x' == x)%Q -> (qmod x' m == qmod x m)%Q.
Proof. intros H. unfold qmod. assert (E : Qfloor (x' / m) = Qfloor (x / m)) by (apply Qfloor_comp; rewrite H; reflexivity). rewrite E, H. reflexivity. Qed.
Lemma t_mean_at p q tp tp' t t' : (0 < p)%Q -> LT p q tp tp' -> T p q t t' -> (mean_anomaly_at tp t == mean_anomaly_at tp' t')%Q.
Proof.
  intros Hp H Ht. unfold mean_anomaly_at. rewrite (f2_length _ _ _ H). symmetry. apply qmod_comp. eapply t_np_interp; eassumption.
Qed.

Lemma t_limits p q l l' lo hi lo' hi' : (0 < p)%Q -> LT p q l l' -> T p q lo lo' -> T p q hi hi' ->
  same_res eq (check_input_limits l lo hi) (check_input_limits l' lo' hi').
Proof.
  intros Hp H Hlo Hhi. unfold check_input_limits.
  rewrite (f2_existsb (T p q) (fun v => Qlt_bool hi v) (fun v => Qlt_bool hi' v) l l' (fun x x' Hx => T_lt p q hi x hi' x' Hp Hhi Hx) H).
  rewrite (f2_existsb (T p q) (fun v => Qlt_bool v lo) (fun v => Qlt_bool v lo') l l' (fun x x' Hx => T_lt p q x lo x' lo' Hp Hx Hlo) H).
  destruct (existsb _ l); [rerr|]. destruct (existsb _ l); [rerr|constructor; reflexivity].
Qed.
Lemma diff_le0 p q l l' : (0 < p)%Q -> LT p q l l' ->
  existsb (fun d => Qle_bool d 0) (qdiff l') = existsb (fun d => Qle_bool d 0) (qdiff l).
Proof. intros Hp H. apply (f2_existsb (T p 0)); [|eapply t_qdiff; exact H]. intros x x' Hx. apply (T_le p 0); auto using T_zero. Qed.
Lemma diff_lt0 p q l l' : (0 < p)%Q -> LT p q l l' ->
  existsb (fun d => Qlt_bool d 0) (qdiff l') = existsb (fun d => Qlt_bool d 0) (qdiff l).
Proof. intros Hp H. apply (f2_existsb (T p 0)); [|eapply t_qdiff; exact H]. intros x x' Hx. apply (T_lt p 0); auto using T_zero. Qed.
Lemma t_monotonicity p q l l' : (0 < p)%Q -> LT p q l l' -> same_res eq (check_monotonicity l) (check_monotonicity l').
Proof. intros Hp H. unfold check_monotonicity. rewrite (diff_le0 p q l l' Hp H). destruct (existsb _ _); [rerr|constructor; reflexivity]. Qed.
Lemma t_increasing p q l l' : (0 < p)%Q -> LT p q l l' -> all_increasing l' = all_increasing l.
Proof.
  intros Hp H. unfold all_increasing. apply t_qdiff in H. induction H as [|x x' m m' Hx H IH]; cbn; [reflexivity|].
  rewrite IH. f_equal. apply (T_lt p 0); auto using T_zero.
Qed.

(** ** The test of the slope of an interpolant: a ratio of second differences, free of units *)
Lemma t_gradient_tail p r x x' : (0 < p)%Q -> (0 < r)%Q -> ~ (x == 0)%Q -> T p 0 x x' -> forall l l' s, LT r s l l' ->
  forall u u' v v', T r s u u' -> T r s v v' -> LT (r / p) 0 (gradient_tail u v l x) (gradient_tail u' v' l' x').
Proof.
  intros Hp Hr Hx Tx l l' s H. induction H as [|y y' l l' Hy H IH]; intros u u' v v' Hu Hv; cbn.
  - constructor; [|constructor]. unfold same_time in *. rewrite Hu, Hv, Tx. fld.
  - constructor; [|apply IH; assumption]. unfold same_time in *. rewrite Hu, Hy, Tx. fld.
Qed.
Lemma r_gradient p r s x x' l l' : (0 < p)%Q -> (0 < r)%Q -> T p 0 x x' -> LT r s l l' ->
  same_res (LT (r / p) 0) (np_gradient l x) (np_gradient l' x').
Proof.
  intros Hp Hr Tx H. unfold np_gradient. destruct H as [|u u' l l' Hu H]; [rerr|]. destruct H as [|v v' l l' Hv H]; [rerr|].
  rewrite (T_eq0 p x x' Hp Tx). destruct (Qeq_bool x 0) eqn:E; [rerr|].
  assert (G : ~ (x == 0)%Q) by (intro G; apply Qeq_bool_iff in G; congruence).
  constructor. constructor; [|eapply t_gradient_tail; eassumption].
  unfold same_time in *. rewrite Hu, Hv, Tx. fld.
Qed.
Lemma qlt_comp x x' y y' : (x == x')%Q -> (y == y')%Q -> Qlt_bool x y = Qlt_bool x' y'.
Proof. intros H K. unfold Qlt_bool. f_equal. apply Bool.eq_true_iff_eq. rewrite !Qle_bool_iff, H, K. tauto. Qed.
Lemma t_flagged p x x' y y' tol : (0 < p)%Q -> T p 0 x x' -> T p 0 y y' -> ratio_flagged x' y' tol = ratio_flagged x y tol.
Proof.
  intros Hp Hx Hy. unfold ratio_flagged. rewrite (T_eq0 p y y' Hp Hy). destruct (Qeq_bool y 0) eqn:E.
  - apply (T_lt p 0); auto using T_zero.
  - assert (G : ~ (y == 0)%Q) by (intro G; apply Qeq_bool_iff in G; congruence).
    assert (K : (x' / y' == x / y)%Q) by (unfold same_time in *; rewrite Hx, Hy; field; split; [exact G|lra]).
    rewrite (qlt_comp (Qabs (1 - x' / y')) (Qabs (1 - x / y)) tol tol); [|rewrite K; reflexivity|reflexivity].
    rewrite (qlt_comp (x' / y') (x / y) 1 1 K); reflexivity.
Qed.
Lemma r_not_monotonic p q r s x x' y y' tol : (0 < p)%Q -> (0 < r)%Q -> LT p q x x' -> LT r s y y' ->
  same_res eq (first_derivative_not_monotonic x y tol) (first_derivative_not_monotonic x' y' tol).
Proof.
  intros Hp Hr Hx Hy. unfold first_derivative_not_monotonic.
  eapply rb; [apply f2_get; exact Hx|]. intros u u' Hu. eapply rb; [apply f2_get; exact Hx|]. intros v v' Hv.
  eapply rb; [eapply (r_gradient p r s); [exact Hp|exact Hr|eapply T_minus; eassumption|exact Hy]|].
  intros g g' Hg. constructor. symmetry.
  assert (Hrp : (0 < r / p)%Q) by (apply Qlt_shift_div_l; lra).
  eapply f2_existsb; [|apply f2_combine; [apply f2_tl; exact Hg|exact Hg]].
  intros z z' [H1 H2]. eapply t_flagged; eassumption.
Qed.

(** ** Interpolation *)
Section Spline.
  Variable spline_val : list Q -> list Q -> nat -> Q -> Q.
  Variable pchip_val : list Q -> list Q -> Q -> Q.
  Hypothesis Hs : spline_affine spline_val.

  Lemma r_interpolant p q r s x x' y y' kw : (0 < p)%Q -> (0 < r)%Q -> LT p q x x' -> LT r s y y' -> length x = length y ->
    same_res (fun f f' => forall t t', T p q t t' ->
                same_res (T r s) (eval_interpolant spline_val pchip_val f t) (eval_interpolant spline_val pchip_val f' t'))
      (fst (get_interpolant x y false "spline" kw)) (fst (get_interpolant x' y' false "spline" kw)).
  Proof.
    intros Hp Hr Hx Hy Hl. unfold get_interpolant. rewrite (t_increasing p q x x' Hp Hx), (f2_length _ _ _ Hx).
    destruct (all_increasing x) eqn:E; cbn [negb]; [|rerr]. apply all_increasing_iff in E.
    change (("spline" =? "spline")%string) with true. cbv iota.
    destruct (Nat.ltb_spec (length x) 2) as [L|L]; [rerr|].
    assert (G : forall k, (k < length x)%nat -> forall t t', T p q t t' ->
      same_res (T r s) (eval_interpolant spline_val pchip_val (SplineI x y k 2) t)
                       (eval_interpolant spline_val pchip_val (SplineI x' y' k 2) t')).
    { intros k Hk t t' Ht. cbn [eval_interpolant]. eapply rb; [apply f2_get; exact Hx|]. intros lo lo' Hlo.
      eapply rb; [apply f2_last; exact Hx|]. intros hi hi' Hhi.
      rewrite (T_lt p q t lo t' lo' Hp Ht Hlo), (T_lt p q hi t hi' t' Hp Hhi Ht).
      destruct (Qlt_bool t lo || Qlt_bool hi t); [rerr|]. constructor. apply (Hs p q r s); assumption. }
    destruct (Nat.leb_spec (length x) (sp_k match kw with None => get_default_spline_kwargs | Some d => d end)) as [K|K];
      cbn [fst sp_ext]; constructor; rewrite fix_ext_false; apply G; lia.
  Qed.

  Lemma interpolate_err newX oldX oldY kw e : interpolate spline_val pchip_val newX oldX oldY false "spline" kw = Err e ->
    In e [GenericException; ValueError].
  Proof.
    unfold interpolate. destruct (length oldY =? length oldX); cbn [negb]; [|intros H; injection H as <-; left; reflexivity].
    unfold qmin, qmax. destruct newX as [|n newX]; cbn [bind]; [intros H; injection H as <-; right; left; reflexivity|].
    destruct oldX as [|o oldX]; cbn [bind]; [intros H; injection H as <-; right; left; reflexivity|].
    destruct (Qlt_bool _ _); cbn [bind]; [intros H; injection H as <-; left; reflexivity|].
    destruct (Qlt_bool _ _); cbn [bind]; [intros H; injection H as <-; left; reflexivity|].
    destruct (fst (get_interpolant _ _ _ _ _)) as [f|e0] eqn:E; cbn [bind].
    - apply get_interpolant_spline_ok in E. cbn zeta in E. destruct E as (_ & L & ->). rewrite fix_ext_false.
      match goal with |- eval_all _ _ (SplineI ?x ?y ?k _) ?ts = _ -> _ => generalize ts as l; generalize k as kk end.
      intros kk l. induction l as [|t l IH]; cbn [eval_all]; [discriminate|].
      cbn [eval_interpolant]. unfold get at 1. cbn [nth_error bind].
      destruct (last_of (o :: oldX)) as [hi|e1] eqn:El.
      2:{ exfalso. destruct (nth_error (o :: oldX) (length (o :: oldX) - 1)) eqn:En.
          - revert El. unfold last_of, zget. replace (0 <=? -1)%Z with false by reflexivity.
            destruct (Z.leb_spec 0 (Z.of_nat (length (o :: oldX)) + -1)) as [Z|Z]; [|cbn [length] in Z; lia].
            replace (Z.to_nat (Z.of_nat (length (o :: oldX)) + -1)) with (length (o :: oldX) - 1)%nat by lia.
            unfold get. rewrite En. discriminate.
          - apply nth_error_None in En. cbn [length] in En. lia. }
      cbn [bind]. destruct (Qlt_bool t o || Qlt_bool hi t); cbn.
      + intros H; injection H as <-; right; left; reflexivity.
      + destruct (eval_all _ _ _ l); cbn; [discriminate|]. intros H. injection H as <-. apply IH. reflexivity.
    - revert E. unfold get_interpolant. destruct (all_increasing _); cbn [negb fst]; [|intros H; injection H as <-; intros H; injection H as <-; left; reflexivity].
      change (("spline" =? "spline")%string) with true. cbv iota.
      destruct (_ <? 2)%nat; cbn [fst]; [intros H; injection H as <-; intros H; injection H as <-; left; reflexivity|].
      destruct (_ <=? _)%nat; cbn; discriminate.
  Qed.
  Lemma r_eval_all p q r s f f' ts ts' :
    (forall t t', T p q t t' -> same_res (T r s) (eval_interpolant spline_val pchip_val f t) (eval_interpolant spline_val pchip_val f' t')) ->
    LT p q ts ts' -> same_res (LT r s) (eval_all spline_val pchip_val f ts) (eval_all spline_val pchip_val f' ts').
  Proof.
    intros H. induction 1 as [|t t' ts ts' Ht Hts IH]; cbn; [constructor; constructor|].
    eapply rb; [apply H; exact Ht|]. intros u u' Hu. eapply rb; [exact IH|]. intros v v' Hv. constructor. constructor; assumption.
  Qed.
  Lemma interpolate_plain newX oldX oldY kw r : interpolate spline_val pchip_val newX oldX oldY false "spline" kw = Ok r ->
    newX <> [] /\ bind (fst (get_interpolant oldX oldY false "spline" kw)) (fun f => eval_all spline_val pchip_val f newX) = Ok r.
  Proof.
    unfold interpolate. destruct (length oldY =? length oldX); cbn [negb]; [|discriminate]. intros H.
    apply bind_ok in H. destruct H as (u & E & H). split; [|exact H]. intros ->. discriminate E.
  Qed.
  Lemma T_inside p q x lo hi x' lo' hi' : (0 < p)%Q -> T p q x x' -> T p q lo lo' -> T p q hi hi' ->
    (lo <= x <= hi)%Q <-> (lo' <= x' <= hi')%Q.
  Proof.
    intros Hp Hx Hlo Hhi. pose proof (T_le p q lo x lo' x' Hp Hlo Hx) as A. pose proof (T_le p q x hi x' hi' Hp Hx Hhi) as B.
    rewrite <- !Qle_bool_iff. rewrite A, B. tauto.
  Qed.
  Lemma f2_nth {A A'} (R : A -> A' -> Prop) l l' i : Forall2 R l l' -> same_option R (nth_error l i) (nth_error l' i).
  Proof. intros H. revert i. induction H as [|x x' l l' Hx H IH]; intros [|i]; cbn; try constructor; auto. Qed.
  Lemma inside_iff p q newX newX' lo hi lo' hi' : (0 < p)%Q -> LT p q newX newX' -> T p q lo lo' -> T p q hi hi' ->
    (forall t, In t newX -> (lo <= t <= hi)%Q) <-> (forall t, In t newX' -> (lo' <= t <= hi')%Q).
  Proof.
    intros Hp H Hlo Hhi. induction H as [|x x' l l' Hx H IH]; [split; intros ? ? []|].
    pose proof (T_inside p q x lo hi x' lo' hi' Hp Hx Hlo Hhi) as E. split; intros K t [<-|Ht].
    - apply E. apply K. left. reflexivity.
    - apply (proj1 IH); [|exact Ht]. intros s Hs'. apply K. right. exact Hs'.
    - apply E. apply K. left. reflexivity.
    - apply (proj2 IH); [|exact Ht]. intros s Hs'. apply K. right. exact Hs'.
  Qed.
  Lemma interpolate_iff newX oldX oldY kw :
    (exists r, interpolate spline_val pchip_val newX oldX oldY false "spline" kw = Ok r) <->
    (length oldX = length oldY /\ all_increasing oldX = true /\ 2 <= length oldX /\ newX <> [] /\
     exists lo hi, nth_error oldX 0 = Some lo /\ nth_error oldX (length oldX - 1) = Some hi /\ forall t, In t newX -> (lo <= t <= hi)%Q).
  Proof.
    split.
    - intros [r H]. destruct (interpolate_plain _ _ _ _ _ H) as [N _]. apply interpolate_spline_safe in H.
      destruct H as (A & B & C & _ & D). apply all_increasing_iff in B. auto.
    - intros (A & B & C & N & lo & hi & D & E & F). apply all_increasing_iff in B.
      exact (interpolate_spline_total spline_val pchip_val newX oldX oldY kw lo hi A B C N D E F).
  Qed.
  Lemma r_interpolate p q r s newX newX' oldX oldX' oldY oldY' kw : (0 < p)%Q -> (0 < r)%Q ->
    LT p q newX newX' -> LT p q oldX oldX' -> LT r s oldY oldY' ->
    same_res (LT r s) (interpolate spline_val pchip_val newX oldX oldY false "spline" kw)
                      (interpolate spline_val pchip_val newX' oldX' oldY' false "spline" kw).
  Proof.
    intros Hp Hr Hn Ho Hy.
    assert (I : (exists r, interpolate spline_val pchip_val newX oldX oldY false "spline" kw = Ok r) <->
                (exists r, interpolate spline_val pchip_val newX' oldX' oldY' false "spline" kw = Ok r)).
    { rewrite !interpolate_iff. rewrite (t_increasing p q oldX oldX' Hp Ho), !(f2_length _ _ _ Ho), (f2_length _ _ _ Hy).
      assert (N : newX <> [] <-> newX' <> []) by (destruct Hn; split; congruence).
      pose proof (f2_nth _ _ _ 0 Ho) as N0. pose proof (f2_nth _ _ _ (length oldX - 1) Ho) as N1.
      split; intros (A & B & C & D & lo & hi & E & F & G); (split; [exact A|split; [exact B|split; [exact C|split; [apply N; exact D|]]]]).
      - rewrite E in N0. rewrite F in N1. inversion N0 as [|? lo' Hlo E0 E']. inversion N1 as [|? hi' Hhi F0 F'].
        exists lo', hi'. split; [first [reflexivity|exact (eq_sym E')|exact (eq_sym E0)]|]. split; [first [reflexivity|exact (eq_sym F')|exact (eq_sym F0)]|]. exact (proj1 (inside_iff p q newX newX' lo hi lo' hi' Hp Hn Hlo Hhi) G).
      - rewrite E in N0. rewrite F in N1. inversion N0 as [|lo' ? Hlo E0 E']. inversion N1 as [|hi' ? Hhi F0 F'].
        exists lo', hi'. split; [first [reflexivity|exact (eq_sym E')|exact (eq_sym E0)]|]. split; [first [reflexivity|exact (eq_sym F')|exact (eq_sym F0)]|]. exact (proj2 (inside_iff p q newX newX' lo' hi' lo hi Hp Hn Hlo Hhi) G). }
    destruct (interpolate spline_val pchip_val newX oldX oldY false "spline" kw) as [v|e] eqn:E.
    - destruct (proj1 I (ex_intro _ v eq_refl)) as [v' E']. rewrite E'.
      pose proof (proj1 (interpolate_iff _ _ _ _) (ex_intro _ v E)) as (L & _).
      destruct (interpolate_plain _ _ _ _ _ E) as [_ P]. destruct (interpolate_plain _ _ _ _ _ E') as [_ P'].
      rewrite <- P, <- P'. eapply rb; [exact (r_interpolant p q r s oldX oldX' oldY oldY' kw Hp Hr Ho Hy L)|].
      intros f f' Hf. exact (r_eval_all p q r s f f' newX newX' Hf Hn).
    - destruct (interpolate spline_val pchip_val newX' oldX' oldY' false "spline" kw) as [v'|e'] eqn:E'.
      + destruct (proj2 I (ex_intro _ v' eq_refl)) as [v K]. discriminate K.
      + constructor. right. split; [exact (interpolate_err _ _ _ _ _ E)|exact (interpolate_err _ _ _ _ _ E')].
  Qed.
End Spline.
