From Coq Require Import Lia Lqa Qfield.
From Verif Require Import Base BaseLemmas UtilsModel UtilsSpec UtilsLemmas ExtremaModel RationalModel MeasureModel SegmentModel DataModel InitModel ScaleSpec ScaleCallSpec ScaleLemmas.
Open Scope nat_scope.
Lemma dot_rel p r l l' m m' : Forall2 (T p 0) l l' -> Forall2 (T r 0) m m' -> (qdot l' m' == p * r * qdot l m)%Q.
Proof.
  intros H. revert m m'. induction H as [|x x' l l' Hx H IH]; intros m m' Hm; cbn [qdot]; [ring|].
  destruct Hm as [|y y' m m' Hy Hm]; cbn [qdot]; [ring|]. rewrite (IH m m' Hm). unfold same_time in *. rewrite Hx, Hy. ring.
Qed.
Lemma f2_firstn {A A'} (R : A -> A' -> Prop) n l l' : Forall2 R l l' -> Forall2 R (firstn n l) (firstn n l').
Proof. intros H. revert n. induction H; intros [|n]; cbn; constructor; auto. Qed.
Lemma f2_skipn {A A'} (R : A -> A' -> Prop) n l l' : Forall2 R l l' -> Forall2 R (skipn n l) (skipn n l').
Proof. intros H. revert n. induction H; intros [|n]; cbn; try constructor; auto. Qed.
Lemma f2_slice {A A'} (R : A -> A' -> Prop) i j l l' : Forall2 R l l' -> Forall2 R (slice l i j) (slice l' i j).
Proof. intros H. unfold slice. apply f2_firstn. apply f2_skipn. exact H. Qed.
Lemma qeq_bool_comp0 x x' : (x == 0 <-> x' == 0)%Q -> Qeq_bool x' 0 = Qeq_bool x 0.
Proof. intros H. apply Bool.eq_true_iff_eq. rewrite !Qeq_bool_iff. tauto. Qed.
Lemma mul0 k x : ~ (k == 0)%Q -> (k * x == 0 <-> x == 0)%Q.
Proof. intros H. split; intros K; [apply Qmult_integral in K; tauto|rewrite K; ring]. Qed.

(** ** Positions *)
Lemma T_abs p x x' : (0 < p)%Q -> T p 0 x x' -> T p 0 (Qabs x) (Qabs x').
Proof.
  unfold same_time. intros Hp H. rewrite H. assert (E : (p * x + 0 == p * x)%Q) by ring. rewrite E, Qabs_Qmult, (Qabs_pos p); [ring|lra].
Qed.
Lemma T_opp p x x' : T p 0 x x' -> T p 0 (- x) (- x').
Proof. unfold same_time. intros ->. ring. Qed.
Lemma t_argmax_from p q l l' : (0 < p)%Q -> LT p q l l' -> forall x x' j i, T p q x x' -> argmax_from x' j i l' = argmax_from x j i l.
Proof.
  intros Hp. induction 1 as [|y y' l l' Hy H IH]; intros x x' j i Hx; cbn; [reflexivity|].
  rewrite (T_lt p q x y x' y' Hp Hx Hy). destruct (Qlt_bool x y); apply IH; assumption.
Qed.
Lemma t_argmax p q l l' : (0 < p)%Q -> LT p q l l' -> argmax l' = argmax l.
Proof. intros Hp [|x x' m m' Hx H]; cbn; [reflexivity|]. f_equal. eapply t_argmax_from; eassumption. Qed.
Lemma r_peak p q s t t' f f' : (0 < p)%Q -> (0 < s)%Q -> LT p q t t' -> LT s 0 f f' ->
  same_res (fun x x' => T p q (fst x) (fst x') /\ (snd x' == s * snd x)%Q) (peak_time_via_quadratic_fit t f) (peak_time_via_quadratic_fit t' f').
Proof.
  intros Hp Hs H Hff. unfold peak_time_via_quadratic_fit. rewrite (t_argmax s 0 f f' Hs Hff). eapply rb; [instantiate (1 := eq); destruct (argmax f); [constructor; reflexivity|rerr]|].
  intros i i' <-. cbv zeta. rewrite (f2_length _ _ _ H). set (w := quad_window (length t) i).
  eapply rb; [apply f2_get; exact H|]. intros ti ti' Hti.
  set (tt := map (fun x => (x - ti)%Q) (slice t (w - 2) (w + 3))). set (tt' := map (fun x => (x - ti')%Q) (slice t' (w - 2) (w + 3))).
  assert (Htt : LT p 0 tt tt').
  { eapply f2_map; [|apply f2_slice; exact H]. intros x x' Hx. eapply T_minus; eassumption. }
  rewrite (f2_length _ _ _ Htt). destruct (negb _); [rerr|].
  set (x0 := map (fun _ => 1%Q) tt). set (x0' := map (fun _ => 1%Q) tt'). set (x2 := map (fun x => (x * x)%Q) tt). set (x2' := map (fun x => (x * x)%Q) tt').
  set (ff := slice f (w - 2) (w + 3)). set (ff' := slice f' (w - 2) (w + 3)).
  assert (H0 : LT 1 0 x0 x0') by (eapply f2_map; [|exact Htt]; intros; unfold same_time; ring).
  assert (H2 : LT (p * p) 0 x2 x2') by (eapply f2_map; [|exact Htt]; intros x x' Hx; unfold same_time in *; rewrite Hx; ring).
  assert (Hf : LT s 0 ff ff') by (apply f2_slice; exact Hff).
  pose proof (dot_rel 1 1 _ _ _ _ H0 H0) as D00. pose proof (dot_rel p 1 _ _ _ _ Htt H0) as D10. pose proof (dot_rel _ 1 _ _ _ _ H2 H0) as D20.
  pose proof (dot_rel 1 p _ _ _ _ H0 Htt) as D01. pose proof (dot_rel p p _ _ _ _ Htt Htt) as D11. pose proof (dot_rel _ p _ _ _ _ H2 Htt) as D21.
  pose proof (dot_rel 1 _ _ _ _ _ H0 H2) as D02. pose proof (dot_rel p _ _ _ _ _ Htt H2) as D12. pose proof (dot_rel _ _ _ _ _ _ H2 H2) as D22.
  pose proof (dot_rel s 1 _ _ _ _ Hf H0) as F0. pose proof (dot_rel s p _ _ _ _ Hf Htt) as F1. pose proof (dot_rel s _ _ _ _ _ Hf H2) as F2.
  generalize dependent (qdot x0 x0). generalize dependent (qdot tt x0). generalize dependent (qdot x2 x0).
  generalize dependent (qdot x0 tt). generalize dependent (qdot tt tt). generalize dependent (qdot x2 tt).
  generalize dependent (qdot x0 x2). generalize dependent (qdot tt x2). generalize dependent (qdot x2 x2).
  generalize dependent (qdot x0' x0'). generalize dependent (qdot tt' x0'). generalize dependent (qdot x2' x0').
  generalize dependent (qdot x0' tt'). generalize dependent (qdot tt' tt'). generalize dependent (qdot x2' tt').
  generalize dependent (qdot x0' x2'). generalize dependent (qdot tt' x2'). generalize dependent (qdot x2' x2').
  generalize dependent (qdot ff x0). generalize dependent (qdot ff tt). generalize dependent (qdot ff x2).
  generalize dependent (qdot ff' x0'). generalize dependent (qdot ff' tt'). generalize dependent (qdot ff' x2').
  intros. clear - Hp Hs Hti D00 D10 D20 D01 D11 D21 D02 D12 D22 F0 F1 F2.
  assert (Np : ~ (p == 0)%Q) by lra. assert (Ns : ~ (s == 0)%Q) by lra.
  unfold inv3. 
  match goal with |- context [det3 ?m] => set (dt := det3 m) end.
  match goal with |- context [Qeq_bool (det3 ?m) 0] => set (dt' := det3 m) end.
  assert (E : (dt' == p * p * p * p * p * p * dt)%Q).
  { subst dt dt'. cbn [det3]. rewrite D00, D10, D20, D01, D11, D21, D02, D12, D22. ring. }
  assert (P6 : ~ (p * p * p * p * p * p == 0)%Q) by (intro K; repeat (apply Qmult_integral in K; destruct K as [K|K]; [|contradiction]); contradiction).
  rewrite (qeq_bool_comp0 dt dt'); [|rewrite E; rewrite (mul0 _ _ P6); tauto].
  destruct (Qeq_bool dt 0) eqn:Z; [rerr|]. assert (N : ~ (dt == 0)%Q) by (intro K; apply Qeq_bool_iff in K; congruence).
  cbn [bind]. cbn [dot3].
  match goal with |- context [if Qeq_bool ?c 0 then Err NonFinite else Ok (ti - ?c1 / _, ?c0 - _)%Q] => set (c2 := c); set (k1 := c1); set (k0 := c0) end.
  match goal with |- same_res _ _ (if Qeq_bool ?c 0 then Err NonFinite else Ok (ti' - ?c1 / _, ?c0 - _)%Q) => set (c2' := c); set (k1' := c1); set (k0' := c0) end.
  assert (E2 : (p * p * c2' == s * c2)%Q).
  { subst c2 c2'. rewrite E; rewrite ?D00, ?D10, ?D20, ?D01, ?D11, ?D21, ?D02, ?D12, ?D22, ?F0, ?F1, ?F2. field. tauto. }
  assert (E1 : (p * k1' == s * k1)%Q).
  { subst k1 k1'. rewrite E; rewrite ?D00, ?D10, ?D20, ?D01, ?D11, ?D21, ?D02, ?D12, ?D22, ?F0, ?F1, ?F2. field. tauto. }
  assert (E0 : (k0' == s * k0)%Q).
  { subst k0 k0'. rewrite E; rewrite ?D00, ?D10, ?D20, ?D01, ?D11, ?D21, ?D02, ?D12, ?D22, ?F0, ?F1, ?F2. field. tauto. }
  clearbody c2 c2' k1 k1' k0 k0'.
  assert (P2 : ~ (p * p == 0)%Q) by (intro K; apply Qmult_integral in K; tauto).
  rewrite (qeq_bool_comp0 c2 c2'); [|rewrite <- (mul0 _ c2' P2), E2, (mul0 _ _ Ns); tauto].
  destruct (Qeq_bool c2 0) eqn:Z2; [rerr|]. assert (N2 : ~ (c2 == 0)%Q) by (intro K; apply Qeq_bool_iff in K; congruence).
  assert (N2' : ~ (c2' == 0)%Q) by (intro K; apply N2; rewrite <- (mul0 s c2 Ns), <- E2, K; ring).
  assert (G1 : (k1 == p * k1' / s)%Q) by (rewrite E1; field; tauto). assert (G2 : (c2 == p * p * c2' / s)%Q) by (rewrite E2; field; tauto).
  constructor. cbn [fst snd]. split.
  - unfold same_time in *. rewrite Hti, G1, G2. field. tauto.
  - rewrite E0, G1, G2. field. tauto.
Qed.

Lemma t_nearest p q l l' x x' : (0 < p)%Q -> LT p q l l' -> T p q x x' ->
  argmin (map (fun y => Qabs (y - x')) l') = argmin (map (fun y => Qabs (y - x)) l).
Proof.
  intros Hp H Hx. unfold argmin. apply (t_argmax p 0); [exact Hp|]. eapply f2_map; [|eapply f2_map; [|exact H]].
  - intros u u' Hu. apply T_opp. exact Hu.
  - intros y y' Hy. apply T_abs; [exact Hp|]. eapply T_minus; eassumption.
Qed.
Lemma f2_where {A A'} (R : A -> A' -> Prop) p p' l l' : (forall x x', R x x' -> p' x' = p x) -> Forall2 R l l' ->
  where_idx p' l' = where_idx p l.
Proof.
  intros Hp H. unfold where_idx. generalize 0%nat. induction H as [|x x' l l' Hx H IH]; intros i; cbn; [reflexivity|].
  rewrite (Hp x x' Hx), IH. reflexivity.
Qed.
Lemma f2_zslice {A A'} (R : A -> A' -> Prop) i j l l' : Forall2 R l l' -> Forall2 R (zslice l i j) (zslice l' i j).
Proof. intros H. unfold zslice. rewrite (f2_length _ _ _ H). apply f2_slice. exact H. Qed.
Lemma f2_every {A A'} (R : A -> A' -> Prop) s l l' : Forall2 R l l' -> Forall2 R (every s l) (every s l').
Proof.
  intros H. unfold every. generalize 0%nat. induction H as [|x x' l l' Hx H IH]; intros k; cbn; [constructor|].
  destruct k; [constructor|]; auto.
Qed.

(** ** Derivative and uniform steps *)
Lemma t_deriv p y d d' : (0 < p)%Q -> T p 0 d d' -> same_res (LT (1 / p) 0) (time_deriv_4thOrder y d) (time_deriv_4thOrder y d').
Proof.
  intros Hp Hd. unfold time_deriv_4thOrder. destruct (length y <? 5); [rerr|]. rewrite (T_eq0 p d d' Hp Hd).
  destruct (Qeq_bool d 0) eqn:E; [rerr|]. assert (G : ~ (d == 0)%Q) by (intro G; apply Qeq_bool_iff in G; congruence).
  constructor. eapply (f2_map eq); [|apply f2_refl; reflexivity]. intros u u' <-. unfold same_time in *. rewrite Hd. field. split; [exact G|lra].
Qed.
Lemma edge_shift k w w' c : LT 1 k w w' -> length w = 5 -> In c [stencil0; stencil1; stencil_m2; stencil_m1] -> (edge_dot w' c == edge_dot w c)%Q.
Proof.
  intros H Hl Hc. do 5 (destruct H as [|? ? ? ? ? H]; [discriminate Hl|]). destruct H as [|? ? ? ? ? H]; [|discriminate Hl]. unfold same_time in *.
  cbn in Hc. destruct Hc as [<-|[<-|[<-|[<-|[]]]]]; unfold edge_dot, stencil0, stencil1, stencil_m2, stencil_m1; cbn; rewrite H0, H1, H2, H3, H4; field.
Qed.
Lemma interior_shift k y y' : LT 1 k y y' -> Forall2 (fun u u' => u' == u)%Q (deriv_interior y) (deriv_interior y').
Proof.
  intros H. unfold deriv_interior. set (P := fun x x' : Q * Q => T 1 k (fst x) (fst x') /\ T 1 k (snd x) (snd x')).
  eapply (f2_map2 P P).
  - intros [x1 x2] [x1' x2'] [z1 z2] [z1' z2'] [H1 H2] [H3 H4]. cbn in *. unfold same_time in *. rewrite H1, H2, H3, H4. field.
  - eapply (f2_map2 (T 1 k) (T 1 k)); [intros; split; assumption|apply f2_zslice; exact H|apply f2_zslice; exact H].
  - eapply (f2_map2 (T 1 k) (T 1 k)); [intros; split; assumption|apply f2_zslice; exact H|apply f2_skipn; exact H].
Qed.
Lemma t_deriv1 p k y y' d d' : (0 < p)%Q -> LT 1 k y y' -> T p 0 d d' -> same_res (LT (1 / p) 0) (time_deriv_4thOrder y d) (time_deriv_4thOrder y' d').
Proof.
  intros Hp Hy Hd. unfold time_deriv_4thOrder. rewrite (f2_length _ _ _ Hy). destruct (length y <? 5) eqn:L; [rerr|]. rewrite (T_eq0 p d d' Hp Hd).
  destruct (Qeq_bool d 0) eqn:E; [rerr|]. assert (G : ~ (d == 0)%Q) by (intro G; apply Qeq_bool_iff in G; congruence). apply Nat.ltb_ge in L. cbv zeta.
  constructor. eapply (f2_map (fun u u' => u' == u)%Q); [intros u u' Hu; unfold same_time in *; rewrite Hu, Hd; field; split; [exact G|lra]|].
  assert (L1 : length (firstn 5 y) = 5) by (rewrite firstn_length; lia). assert (L2 : length (skipn (length y - 5) y) = 5) by (rewrite skipn_length; lia).
  pose proof (f2_firstn _ 5 _ _ Hy) as F. pose proof (f2_skipn _ (length y - 5) _ _ Hy) as S. cbn [app].
  constructor; [apply (edge_shift k); [exact F|exact L1|cbn; auto]|]. constructor; [apply (edge_shift k); [exact F|exact L1|cbn; auto]|].
  apply Forall2_app; [eapply interior_shift; exact Hy|].
  constructor; [apply (edge_shift k); [exact S|exact L2|cbn; auto]|]. constructor; [apply (edge_shift k); [exact S|exact L2|cbn; auto]|constructor].
Qed.
Lemma close_self x y : (x == y)%Q -> close x y = true.
Proof.
  intros H. unfold close. apply Qle_bool_iff. assert (E : (y - x == 0)%Q) by lra. rewrite E. change (Qabs 0) with 0%Q.
  pose proof (Qabs_nonneg x). lra.
Qed.
Lemma evenly_uniform l d : evenly l -> get (qdiff l) 0 = Ok d -> forallb (close d) (qdiff l) = true.
Proof.
  intros [s H] E. apply forallb_forall. intros x Hx. apply close_self. rewrite (H x Hx). symmetry. symmetry. apply H.
  revert E. unfold get. destruct (nth_error (qdiff l) 0) eqn:N; [|discriminate]. intros E. apply Ok_inj in E. subst. eapply nth_error_In; eassumption.
Qed.
Lemma evenly_other p q l l' : LT p q l l' -> evenly l -> evenly l'.
Proof.
  intros H [s Hs]. exists (p * s)%Q. apply t_qdiff in H. revert Hs. induction H as [|x x' m m' Hx H IH]; intros Hs d Hd; [destruct Hd|].
  destruct Hd as [<-|Hd].
  - unfold same_time in Hx. rewrite Hx, (Hs x (or_introl eq_refl)). ring.
  - apply IH; [|exact Hd]. intros e He. apply Hs. right. exact He.
Qed.
Lemma close_comp x x' y y' : (x' == x)%Q -> (y' == y)%Q -> close x' y' = close x y.
Proof. intros H K. unfold close. apply Bool.eq_true_iff_eq. rewrite !Qle_bool_iff. rewrite H, K. tauto. Qed.
Lemma f2_forallb {A A'} (R : A -> A' -> Prop) p p' l l' : (forall x x', R x x' -> p' x' = p x) -> Forall2 R l l' -> forallb p' l' = forallb p l.
Proof. intros Hp. induction 1 as [|x x' l l' Hx H IH]; cbn; [reflexivity|]. rewrite (Hp x x' Hx), IH. reflexivity. Qed.
Lemma t_uniform p q l l' : same_clock p q l l' -> same_res eq (check_uniform l) (check_uniform l').
Proof.
  intros [H [E|E]]; unfold check_uniform; pose proof (t_qdiff _ _ _ _ H) as D.
  - eapply rb; [apply f2_get; exact D|]. intros d d' Hd. assert (K : forall x x', T p 0 x x' -> (x' == x)%Q) by (unfold same_time; intros x x' ->; rewrite E; ring).
    erewrite (f2_forallb (T p 0) (close d) (close d')); [|intros; apply close_comp; auto|exact D]. destruct (forallb _ _); [constructor; reflexivity|rerr].
  - pose proof (evenly_other _ _ _ _ H E) as E'. pose proof (f2_get _ _ _ 0 D) as G.
    destruct (get (qdiff l) 0) as [d|] eqn:N, (get (qdiff l') 0) as [d'|] eqn:N'; try (inversion G; fail); cbn [bind].
    + rewrite (evenly_uniform l d E N), (evenly_uniform l' d' E' N'). constructor. reflexivity.
    + inversion G. constructor. assumption.
Qed.
Lemma qdiff_firstn n l : forall d, In d (qdiff (firstn n l)) -> In d (qdiff l).
Proof.
  revert n. induction l as [|x l IH]; intros [|n] d H; cbn in H; try (destruct H; fail).
  destruct n as [|n]; [destruct l; destruct H|]. destruct l as [|y l]; [destruct H|]. cbn [firstn qdiff] in *.
  destruct H as [<-|H]; [left; reflexivity|right]. apply (IH (S n)). exact H.
Qed.
Lemma clock_firstn p q n l l' : same_clock p q l l' -> same_clock p q (firstn n l) (firstn n l').
Proof.
  intros [H E]. split; [apply f2_firstn; exact H|]. destruct E as [E|[s E]]; [left; exact E|right]. exists s. intros d Hd. apply E. eapply qdiff_firstn; eassumption.
Qed.

(** ** Interpolation that may extrapolate *)
Section Spline.
  Variable spline_val : list Q -> list Q -> nat -> Q -> Q.
  Variable pchip_val : list Q -> list Q -> Q -> Q.
  Hypothesis Hs : spline_affine spline_val.
  Lemma r_extrapolate p q r newX newX' oldX oldX' oldY oldY' kw : (0 < p)%Q -> (0 < r)%Q ->
    LT p q newX newX' -> LT p q oldX oldX' -> LT r 0 oldY oldY' ->
    same_res (LT r 0) (interpolate spline_val pchip_val newX oldX oldY true "spline" kw)
                      (interpolate spline_val pchip_val newX' oldX' oldY' true "spline" kw).
  Proof.
    intros Hp Hr Hn Ho Hy. unfold interpolate. rewrite (f2_length _ _ _ Ho), (f2_length _ _ _ Hy).
    destruct (length oldY =? length oldX) eqn:L; cbn [negb]; [|rerr]. apply Nat.eqb_eq in L. cbn [bind].
    unfold get_interpolant. rewrite (t_increasing p q _ _ Hp Ho), (f2_length _ _ _ Ho).
    destruct (all_increasing oldX) eqn:I; cbn [negb fst]; [|rerr]. apply all_increasing_iff in I.
    change (("spline" =? "spline")%string) with true. cbv iota.
    destruct (Nat.ltb_spec (length oldX) 2) as [K|K]; [rerr|].
    assert (G : forall k e, (k < length oldX)%nat -> same_res (LT r 0) (eval_all spline_val pchip_val (SplineI oldX oldY k e) newX)
      (eval_all spline_val pchip_val (SplineI oldX' oldY' k e) newX')).
    { intros k e Hk. apply (r_eval_all spline_val pchip_val p q r 0); [|exact Hn]. intros t t' Ht. cbn [eval_interpolant].
      eapply rb; [apply f2_get; exact Ho|]. intros lo lo' Hlo. eapply rb; [apply f2_last; exact Ho|]. intros hi hi' Hhi.
      rewrite (T_lt p q t lo t' lo' Hp Ht Hlo), (T_lt p q hi t hi' t' Hp Hhi Ht).
      assert (S : forall u u', T p q u u' -> T r 0 (spline_val oldX oldY k u) (spline_val oldX' oldY' k u'))
        by (intros u u' Hu; apply (Hs p q r 0%Q); auto; lia).
      destruct (Qlt_bool t lo || Qlt_bool hi t); [|constructor; apply S; exact Ht].
      destruct (e =? 0)%Z; [constructor; apply S; exact Ht|]. destruct (e =? 1)%Z; [constructor; apply T_zero|].
      destruct (e =? 3)%Z; [|rerr]. constructor. apply S. destruct (Qlt_bool t lo); assumption. }
    set (d := match kw with None => get_default_spline_kwargs | Some d => d end).
    destruct (Nat.leb_spec (length oldX) (sp_k d)) as [Q|Q]; cbn [fst bind]; apply G; lia.
  Qed.
  Lemma interpolant_kwargs p q x x' y y' al kind kw : (0 < p)%Q -> LT p q x x' ->
    snd (get_interpolant x' y' al kind kw) = snd (get_interpolant x y al kind kw).
  Proof.
    intros Hp H. unfold get_interpolant. rewrite (t_increasing p q _ _ Hp H), (f2_length _ _ _ H).
    destruct (all_increasing x); cbn [negb]; [|reflexivity]. destruct (String.eqb kind "spline").
    - destruct (length x <? 2); [reflexivity|]. destruct (_ <=? _); reflexivity.
    - destruct (String.eqb kind "monotonic_spline"); [|reflexivity]. destruct (length x <? 2); reflexivity.
  Qed.
End Spline.
Lemma f2_zip p l l' m m' f : (forall x x' y y', T p 0 x x' -> T p 0 y y' -> T p 0 (f x y) (f x' y')) -> LT p 0 l l' -> LT p 0 m m' ->
  same_res (LT p 0) (zip_with f l m) (zip_with f l' m').
Proof.
  intros Hf Hl Hm. unfold zip_with. rewrite (f2_length _ _ _ Hl), (f2_length _ _ _ Hm). destruct (length l =? length m); [|rerr].
  constructor. eapply f2_map2; eassumption.
Qed.
