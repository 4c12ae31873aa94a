(** What the choice of units, the zero of the phase and the declared precession do not change. *)
From Verif Require Import Base BaseLemmas UtilsModel UtilsSpec PeakLemmas SegmentModel SegmentSpec SegmentLemmas DataModel DataSpec DataLemmas DataLemmas2.
Open Scope string_scope.
Open Scope nat_scope.

Lemma Forall2_nth_l {A B} (R : A -> B -> Prop) l m : Forall2 R l m -> forall i x, nth_error l i = Some x -> exists y, nth_error m i = Some y /\ R x y.
Proof. induction 1; intros [|i] a E; cbn in *; try discriminate; [injection E as <-; eauto|eauto]. Qed.
Lemma Forall2_nth_r {A B} (R : A -> B -> Prop) l m : Forall2 R l m -> forall i y, nth_error m i = Some y -> exists x, nth_error l i = Some x /\ R x y.
Proof. induction 1; intros [|i] a E; cbn in *; try discriminate; [injection E as <-; eauto|eauto]. Qed.
Lemma Forall2_imp {A B} (R S : A -> B -> Prop) l m : (forall x y, R x y -> S x y) -> Forall2 R l m -> Forall2 S l m.
Proof. intros H F. induction F; constructor; auto. Qed.
(** argmax only compares *)
Lemma argmax_rel (R : Q -> Q -> Prop) l m : (forall x y u v, R x u -> R y v -> Qlt_bool x y = Qlt_bool u v) ->
  Forall2 R l m -> argmax l = argmax m.
Proof.
  intros H F. destruct F as [|a b l m Hab F]; [reflexivity|]. cbn. f_equal.
  generalize 0, 1. revert a b Hab. induction F as [|x y l m Hxy F IH]; intros a b Hab i j; cbn; [reflexivity|].
  rewrite (H _ _ _ _ Hab Hxy). destruct (Qlt_bool b y); apply IH; assumption.
Qed.
Lemma Qlt_bool_iff2 x y u v : (x < y <-> u < v)%Q -> Qlt_bool x y = Qlt_bool u v.
Proof.
  intros H. destruct (Qlt_bool u v) eqn:E.
  - apply Qlt_bool_iff in E. apply Qlt_bool_iff. tauto.
  - apply Qlt_bool_false in E. apply Qlt_bool_false. apply Qnot_lt_le. intros X. apply H in X. lra.
Qed.
Lemma argmin_scaled k l m : (0 < k)%Q -> Forall2 (fun x y => y == k * x)%Q l m -> argmin l = argmin m.
Proof.
  intros Hk F. unfold argmin. apply argmax_rel with (fun x y => y == k * x)%Q.
  - intros x y u v H1 H2. apply Qlt_bool_iff2. rewrite H1, H2. split; intros; nra.
  - induction F; cbn; constructor; [|assumption]. rewrite H. ring.
Qed.
Lemma q_int_floor x : q_int x = if Qle_bool 0 x then Qfloor x else (- Qfloor (- x))%Z.
Proof.
  destruct x as [n d]. unfold q_int, Qle_bool, Qfloor, Qopp. cbn [Qnum Qden]. rewrite Z.mul_1_r. cbn [Z.mul].
  destruct (0 <=? n)%Z eqn:E.
  - apply Z.leb_le in E. apply Z.quot_div_nonneg; lia.
  - apply Z.leb_gt in E. rewrite <- (Z.opp_involutive n) at 1. rewrite Z.quot_opp_l by lia. f_equal. apply Z.quot_div_nonneg; lia.
Qed.
Lemma q_int_comp x y : (x == y)%Q -> q_int x = q_int y.
Proof.
  intros H. rewrite !q_int_floor. assert (E : Qle_bool 0 x = Qle_bool 0 y).
  { destruct (Qle_bool 0 y) eqn:E; [apply Qle_bool_iff in E; apply Qle_bool_iff; lra|]. apply Qle_bool_false in E. apply Qle_bool_false. lra. }
  rewrite E. destruct (Qle_bool 0 y); [now apply Qfloor_comp|]. f_equal. apply Qfloor_comp. now rewrite H.
Qed.

(** the phase is moved by c *)
Definition moved (c : Q) : list Q -> list Q -> Prop := Forall2 (fun x y => y == x + c)%Q.
Lemma index_moved ph ph' pm pm' c n : moved c ph ph' -> (pm' == pm + c)%Q ->
  index_before_merger ph' pm' n = index_before_merger ph pm n.
Proof.
  intros F Hp. unfold index_before_merger. cbv zeta. destruct F as [|x y l m Hxy F]; [reflexivity|]. cbn [get nth_error bind].
  assert (E : Qlt_bool (pm' - 4 * np_pi * n) y = Qlt_bool (pm - 4 * np_pi * n) x).
  { apply Qlt_bool_iff2. rewrite Hp, Hxy. set (u := (4 * np_pi * n)%Q). split; intros; lra. }
  rewrite E. clear E. destruct (Qlt_bool (pm - 4 * np_pi * n) x); [reflexivity|]. symmetry. apply argmin_scaled with 1%Q; [reflexivity|].
  assert (G : moved c (x :: l) (y :: m)) by (constructor; assumption). revert G. clear -Hp. generalize (x :: l), (y :: m). clear x y l m. intros l m G. induction G as [|x y l m H G IH]; cbn [map]; constructor; [|exact IH].
  rewrite H, Hp. rewrite Qmult_1_l. apply Qabs_wd. ring.
Qed.
(** time is mapped to a t + b *)
Definition affine (a b : Q) : list Q -> list Q -> Prop := Forall2 (fun x y => y == a * x + b)%Q.
Lemma get_rel (R : Q -> Q -> Prop) l m i : Forall2 R l m ->
  match get l i, get m i with Ok x, Ok y => R x y | Err e, Err e' => e = e' | _, _ => False end.
Proof.
  intros F. unfold get. revert i. induction F; intros [|i]; cbn; auto. apply IHF.
Qed.
Ltac both F i := generalize (get_rel _ _ _ i F);
  match type of F with Forall2 _ ?l ?m => destruct (get l i) eqn:?, (get m i) eqn:? end; try contradiction; [|intros ->; reflexivity].
Lemma width_rescaled a b c t t' ph ph' pm pm' : (0 < a)%Q -> affine a b t t' -> moved c ph ph' -> (pm' == pm + c)%Q ->
  width_from_phase t' ph' pm' = width_from_phase t ph pm.
Proof.
  intros Ha Ft F Hp. unfold width_from_phase. rewrite !(index_moved ph ph' pm pm' c) by assumption.
  unfold affine in Ft.
  destruct (index_before_merger ph pm 2) as [i2|]; [cbn [bind]|reflexivity]. both Ft i2. intros R2. cbn [bind].
  destruct (index_before_merger ph pm 1) as [i1|]; [cbn [bind]|reflexivity]. both Ft i1. intros R1. cbn [bind].
  both Ft 1. intros R3. cbn [bind]. both Ft 0. intros R4. cbn [bind].
  assert (E : Qeq_bool (a5 - a7) 0 = Qeq_bool (a4 - a6) 0).
  { destruct (Qeq_bool (a4 - a6) 0) eqn:E; [apply Qeq_bool_iff in E; apply Qeq_bool_iff; nra|].
    apply Qeq_bool_false in E. apply Qeq_bool_false. intros X. apply E. nra. }
  rewrite E. destruct (Qeq_bool (a4 - a6) 0) eqn:E2; [reflexivity|]. apply Qeq_bool_false in E2. f_equal. apply q_int_comp.
  rewrite R1, R2, R3, R4. field.
  repeat split; try lra. all: try (intros X; apply E2; nra).
Qed.

(** the peak time only depends on the values *)
Lemma Forall2_firstn {A B} (R : A -> B -> Prop) l m : Forall2 R l m -> forall n, Forall2 R (firstn n l) (firstn n m).
Proof. induction 1; intros [|n]; cbn; constructor; auto. Qed.
Lemma Forall2_skipn {A B} (R : A -> B -> Prop) l m : Forall2 R l m -> forall n, Forall2 R (skipn n l) (skipn n m).
Proof. induction 1; intros [|n]; cbn; auto; constructor; auto. Qed.
Lemma Forall2_slice {A B} (R : A -> B -> Prop) l m a b : Forall2 R l m -> Forall2 R (slice l a b) (slice m a b).
Proof. intros F. unfold slice. now apply Forall2_firstn, Forall2_skipn. Qed.
Lemma Forall2_map2 {A B A' B'} (R : A -> B -> Prop) (S : A' -> B' -> Prop) (f : A -> A') (g : B -> B') l m :
  (forall x y, R x y -> S (f x) (g y)) -> Forall2 R l m -> Forall2 S (map f l) (map g m).
Proof. intros H F. induction F; cbn; constructor; auto. Qed.
Lemma Forall2_Qrefl l : Forall2 Qeq l l.
Proof. induction l; constructor; auto. reflexivity. Qed.
Lemma inv3_comp (m m' : mat3) :
  (let '((a, b, c), (d, e, f), (g, h, i)) := m in let '((a', b', c'), (d', e', f'), (g', h', i')) := m' in
   a == a' /\ b == b' /\ c == c' /\ d == d' /\ e == e' /\ f == f' /\ g == g' /\ h == h' /\ i == i')%Q ->
  match inv3 m, inv3 m' with
  | Ok ((a, b, c), (d, e, f), (g, h, i)), Ok ((a', b', c'), (d', e', f'), (g', h', i')) =>
     (a == a' /\ b == b' /\ c == c' /\ d == d' /\ e == e' /\ f == f' /\ g == g' /\ h == h' /\ i == i')%Q
  | Err e, Err e' => e = e'
  | _, _ => False
  end.
Proof.
  destruct m as [[[[a b] c] [[d e] f]] [[g h] i]], m' as [[[[a' b'] c'] [[d' e'] f']] [[g' h'] i']].
  intros (H1 & H2 & H3 & H4 & H5 & H6 & H7 & H8 & H9). unfold inv3. cbv zeta.
  assert (E : (det3 (a, b, c, (d, e, f), (g, h, i)) == det3 (a', b', c', (d', e', f'), (g', h', i')))%Q).
  { unfold det3. rewrite H1, H2, H3, H4, H5, H6, H7, H8, H9. reflexivity. }
  revert E. generalize (det3 (a, b, c, (d, e, f), (g, h, i))) (det3 (a', b', c', (d', e', f'), (g', h', i'))). intros x x' E.
  assert (B : Qeq_bool x 0 = Qeq_bool x' 0).
  { destruct (Qeq_bool x' 0) eqn:B; [apply Qeq_bool_iff in B; apply Qeq_bool_iff; lra|]. apply Qeq_bool_false in B. apply Qeq_bool_false. lra. }
  rewrite B. destruct (Qeq_bool x' 0); [reflexivity|]. rewrite H1, H2, H3, H4, H5, H6, H7, H8, H9, E. repeat split; reflexivity.
Qed.
Lemma peak_ext t f t' f' x : Forall2 Qeq t t' -> Forall2 Qeq f f' -> peak_time_via_quadratic_fit t f = Ok x ->
  exists y, peak_time_via_quadratic_fit t' f' = Ok y /\ (fst y == fst x)%Q.
Proof.
  intros Ft Ff. unfold peak_time_via_quadratic_fit.
  assert (A : argmax f = argmax f').
  { apply argmax_rel with Qeq; [|exact Ff]. intros a b c d H1 H2. apply Qlt_bool_iff2. now rewrite H1, H2. }
  rewrite A. destruct (argmax f') as [i0|]; [cbn [bind]|discriminate].
  assert (L : length t' = length t) by (clear -Ft; induction Ft; cbn; congruence). rewrite L. cbv zeta. set (i := quad_window (length t) i0).
  intros H. inv_bind H. apply get_ok in E. destruct (Forall2_nth_l _ _ _ Ft _ _ E) as (ti' & E' & Ht). apply get_ok in E'. rewrite E'. cbn [bind].
  assert (F1 : Forall2 Qeq (map (fun x => x - v)%Q (slice t (i - 2) (i + 3))) (map (fun x => x - ti')%Q (slice t' (i - 2) (i + 3)))).
  { apply Forall2_map2 with Qeq; [|now apply Forall2_slice]. intros a b Hab. now rewrite Hab, Ht. }
  assert (F2 : Forall2 Qeq (slice f (i - 2) (i + 3)) (slice f' (i - 2) (i + 3))) by now apply Forall2_slice.
  revert H F1 F2. generalize (map (fun x => x - v)%Q (slice t (i - 2) (i + 3))) (map (fun x => x - ti')%Q (slice t' (i - 2) (i + 3))).
  generalize (slice f (i - 2) (i + 3)) (slice f' (i - 2) (i + 3)). intros u u' s s' H F1 F2.
  assert (L2 : length s' = length s) by (clear -F1; induction F1; cbn; congruence). rewrite L2.
  destruct (negb (length s =? 5)); [discriminate|].
  assert (F0 : Forall2 Qeq (map (fun _ => 1%Q) s) (map (fun _ => 1%Q) s')) by (apply Forall2_map2 with Qeq; [reflexivity|exact F1]).
  assert (F3 : Forall2 Qeq (map (fun x => x * x)%Q s) (map (fun x => x * x)%Q s')).
  { apply Forall2_map2 with Qeq; [|exact F1]. intros a b Hab. now rewrite Hab. }
  inv_bind H. match type of E0 with inv3 ?m = _ => match goal with |- context [inv3 ?m'] => pose proof (inv3_comp m m') as K end end.
  cbv beta iota in K. rewrite E0 in K. destruct v0 as [[[[? ?] ?] [[? ?] ?]] [[? ?] ?]].
  match type of K with _ -> match ?r with _ => _ end => destruct r as [[[[[? ?] ?] [[? ?] ?]] [[? ?] ?]]|] eqn:E1 end.
  2: { exfalso. apply K. repeat split; now apply qdot_comp. }
  destruct K as (K1 & K2 & K3 & K4 & K5 & K6 & K7 & K8 & K9); [repeat split; now apply qdot_comp|].
  cbn [bind]. unfold dot3 in *.
  rewrite <- (qdot_comp _ _ F2 _ _ F0) || idtac.
  pose proof (qdot_comp _ _ F2 _ _ F0) as D0. pose proof (qdot_comp _ _ F2 _ _ F1) as D1. pose proof (qdot_comp _ _ F2 _ _ F3) as D2.
  revert H D0 D1 D2. generalize (qdot u (map (fun _ => 1%Q) s)) (qdot u' (map (fun _ => 1%Q) s')) (qdot u s) (qdot u' s')
    (qdot u (map (fun x => x * x)%Q s)) (qdot u' (map (fun x => x * x)%Q s')). intros d0 d0' d1 d1' d2 d2' H D0 D1 D2.
  match type of H with (if Qeq_bool ?c 0 then _ else Ok (_ - ?c1 / _, ?cc)%Q) = _ => set (c2 := c) in *; set (C1 := c1) in *; set (CC := cc) in * end.
  match goal with |- exists y, (if Qeq_bool ?c 0 then _ else Ok (_ - ?c1 / _, ?cc)%Q) = _ /\ _ => set (c2' := c) in *; set (C1' := c1) in *; set (CC' := cc) in * end.
  assert (X2 : (c2' == c2)%Q) by (unfold c2, c2'; now rewrite D0, D1, D2, K7, K8, K9).
  assert (X1 : (C1' == C1)%Q) by (unfold C1, C1'; now rewrite D0, D1, D2, K4, K5, K6).
  clearbody c2 c2' C1 C1' CC CC'.
  destruct (Qeq_bool c2 0) eqn:B; [discriminate|]. apply Qeq_bool_false in B.
  assert (B' : Qeq_bool c2' 0 = false) by (apply Qeq_bool_false; now rewrite X2). rewrite B'. apply Ok_inj in H. subst x.
  eexists. split; [reflexivity|]. cbn [fst]. now rewrite X1, X2, Ht.
Qed.
Lemma peak_affine a b t t' f x : length t = length f -> increasing t -> (0 < a)%Q -> affine a b t t' -> peak_time_via_quadratic_fit t f = Ok x ->
  exists y, peak_time_via_quadratic_fit t' f = Ok y /\ (fst y == a * fst x + b)%Q.
Proof.
  intros HL Hi Ha Ft H. assert (H5 : 5 <= length t).
  { unfold peak_time_via_quadratic_fit in H. inv_bind H. inv_bind H. cbv zeta in H.
    destruct (length _ =? 5) eqn:E1 in H; [|discriminate]. apply Nat.eqb_eq in E1. rewrite map_length, slice_length in E1. lia. }
  pose proof (peak_equivariant t f a b 1 HL H5 Hi Ha ltac:(lra)) as P. rewrite H in P. destruct x as [tp fp]. destruct P as (tp' & fp' & P & P1 & _).
  assert (F1 : Forall2 Qeq (map (fun x => a * x + b)%Q t) t').
  { clear -Ft. induction Ft; cbn; constructor; [symmetry|]; assumption. }
  assert (F2 : Forall2 Qeq (map (fun y => 1 * y)%Q f) f) by (clear; induction f; cbn; constructor; [ring|assumption]).
  destruct (peak_ext _ _ _ _ _ F1 F2 P) as (y & E & Ey).
  exists y. split; [exact E|]. rewrite Ey. exact P1.
Qed.

Section S.
  Variable C : Type.
  Variable cabs cphase : C -> list Q.
  Variable cpolar : list Q -> list Q -> res C.
  Variable rotate : list Q -> list C -> res (list C).
  Variable qsqrt : Q -> Q.
  Notation heap := (heap C). Notation dval := (dval C).
  Notation process := (process_data_dict C cabs cphase cpolar rotate qsqrt).
  Notation readw := (read_waveform C cabs cphase cpolar rotate qsqrt).
  Notation mdata := (merger_data C cabs qsqrt).

  (** related data give related results *)
  Lemma mdata_rel prec prec' t t' nd h nd' h' f a b c am A P O A' P' O' :
    (0 < a)%Q -> affine a b t t' -> mdata prec t nd h = Ok f ->
    modes_at C h nd "amplm" = Ok am -> modes_at C h' nd' "amplm" = Ok am ->
    (forall s tm, amplitude_using_all_modes C cabs qsqrt "amplm" (real_modes C am) = Ok s -> peak_time_via_quadratic_fit t s = Ok tm ->
       exists tm', peak_time_via_quadratic_fit t' s = Ok tm' /\ (fst tm' == a * fst tm + b)%Q) ->
    get_amp_phase_omega_gw C h prec nd "" = Ok (A, P, O) -> get_amp_phase_omega_gw C h' prec' nd' "" = Ok (A', P', O') ->
    Forall2 Qeq A A' -> moved c P P' -> Forall2 (fun x y => 0 <= x -> 0 <= y)%Q O O' ->
    exists f', mdata prec' t' nd' h' = Ok f' /\ f_dict C f' = nd' /\ f_t C f' = t' /\
      (f_t_merger C f' == a * f_t_merger C f + b)%Q /\ (f_amp_merger C f' == f_amp_merger C f)%Q /\ f_width C f' = f_width C f /\
      (forall n, index_before_merger (f_phase C f') (f_phase_merger C f') n = index_before_merger (f_phase C f) (f_phase_merger C f) n).
  Proof.
    intros Ha Ft H M1 M2 Pk G1 G2 FA FP FO. unfold merger_data in H |- *. rewrite M1 in H. rewrite M2. cbn [bind] in H |- *.
    inv_bind H. rewrite E. cbn [bind]. inv_bind H. destruct (Pk _ _ E E0) as (tm' & -> & Htm). cbn [bind]. cbv zeta in H |- *.
    inv_bind H.
    assert (X : argmin (map (fun x => Qabs (x - fst tm')) t') = Ok v1).
    { rewrite <- E1. symmetry. apply argmin_scaled with a; [exact Ha|]. clear -Ha Htm Ft. induction Ft as [|x y t t' Hxy Ft IH]; cbn [map]; constructor; [|exact IH].
      rewrite <- (Qabs_pos a) at 1 by lra. rewrite <- Qabs_Qmult. apply Qabs_wd. rewrite Htm, Hxy. ring. }
    rewrite X. cbn [bind]. rewrite G1 in H. rewrite G2. cbn [bind] in H |- *.
    inv_bind H. apply get_ok in E2. destruct (Forall2_nth_l _ _ _ FA _ _ E2) as (am' & Eam & Ham). apply get_ok in Eam. rewrite Eam. cbn [bind].
    inv_bind H. apply get_ok in E3. destruct (Forall2_nth_l _ _ _ FP _ _ E3) as (pm' & Epm & Hpm). apply get_ok in Epm. rewrite Epm. cbn [bind].
    inv_bind H. apply get_ok in E4. destruct (Forall2_nth_l _ _ _ FO _ _ E4) as (om' & Eom & Hom). apply get_ok in Eom. rewrite Eom. cbn [bind].
    inv_bind H. apply get_ok in E5. destruct (Forall2_nth_l _ _ _ FP _ _ E5) as (p0' & Ep0 & Hp0). apply get_ok in Ep0. rewrite Ep0. cbn [bind].
    destruct (Qlt_bool v3 v5) eqn:Q1; [discriminate|]. destruct (Qlt_bool v4 0) eqn:Q2; [discriminate|].
    apply Qlt_bool_false in Q1. apply Qlt_bool_false in Q2.
    rewrite (proj2 (Qlt_bool_false pm' p0')) by lra. rewrite (proj2 (Qlt_bool_false om' 0)) by auto.
    inv_bind H. rewrite (width_rescaled a b c t t' P P' v3 pm') by assumption. rewrite E6. cbn [bind]. apply Ok_inj in H. subst f.
    eexists. split; [reflexivity|]. cbn [f_dict f_t f_t_merger f_amp_merger f_width f_phase f_phase_merger].
    split; [reflexivity|]. split; [reflexivity|]. split; [exact Htm|]. split; [now symmetry|]. split; [reflexivity|].
    intros n. now apply index_moved with c.
  Qed.

  (** ** declaring a reflection-symmetric system precessing *)
  Lemma array_modes h d key m a ms : modes_at C h d key = Ok ms -> array_of h d key m a -> mget ms m = Ok a.
  Proof.
    unfold modes_at, sget, dget. fold (slookup d key). intros H (v & Hv & Hc). rewrite Hv in H. cbn [bind] in H. apply mget_ok.
    destruct Hc as [(ms' & -> & E)|(q & ms' & -> & E1 & E)]; cbn in H; [congruence|]. rewrite E1 in H. congruence.
  Qed.
  Lemma array_exists h d key m a : array_of h d key m a -> exists ms, modes_at C h d key = Ok ms /\ mget ms m = Ok a.
  Proof.
    intros (v & Hv & Hc). unfold modes_at, sget, dget. fold (slookup d key). rewrite Hv. cbn [bind].
    destruct Hc as [(ms' & -> & E)|(q & ms' & -> & E1 & E)]; exists ms'; (split; [cbn; rewrite ?E1; reflexivity|now apply mget_ok]).
  Qed.
  Lemma sym_gw h d A P O : reflection_symmetric h d ->
    get_amp_phase_omega_gw C h false d "" = Ok (A, P, O) ->
    exists A' P' O', get_amp_phase_omega_gw C h true d "" = Ok (A', P', O') /\ Forall2 Qeq A A' /\ moved 0 P P' /\ Forall2 Qeq O O'.
  Proof.
    intros (u & u' & v & v' & x & x' & Hu & Hu' & Fu & Hv & Hv' & Fv & Hx & Hx' & Fx) H.
    unfold get_amp_phase_omega_gw in *. cbn [negb append] in *.
    destruct (array_exists _ _ _ _ _ Hu) as (am & M1 & G1). destruct (array_exists _ _ _ _ _ Hv) as (pm & M2 & G2).
    destruct (array_exists _ _ _ _ _ Hx) as (om & M3 & G3).
    pose proof (array_modes _ _ _ _ _ _ M1 Hu') as G1'. pose proof (array_modes _ _ _ _ _ _ M2 Hv') as G2'. pose proof (array_modes _ _ _ _ _ _ M3 Hx') as G3'.
    rewrite M1, M2, M3 in *. cbn [bind] in *. rewrite G1, G2, G3 in *. cbn [bind] in *. apply Ok_inj in H. injection H as <- <- <-.
    assert (Mm : forall (d : mdict (list Q)) m y, mget d m = Ok y -> mmem d m = true).
    { intros d0 m y E. apply mget_ok in E. unfold mmem, dmem. now rewrite E. }
    rewrite (Mm _ _ _ G1'), (Mm _ _ _ G2'). cbn [negb]. cbv zeta. rewrite G1', G2', G3'. cbn [bind].
    assert (L : forall (R : Q -> Q -> Prop) a b, Forall2 R a b -> length a = length b) by (intros R a b F; induction F; cbn; congruence).
    assert (Z : forall f R (a b : list Q), Forall2 R a b -> zip_with f a b = Ok (map2 f a b)).
    { intros f R a b F. unfold zip_with. now rewrite (L _ _ _ F), Nat.eqb_refl. }
    rewrite (Z _ _ _ _ Fu), (Z _ _ _ _ Fv), (Z _ _ _ _ Fx). cbn [bind]. eexists _, _, _. split; [reflexivity|].
    repeat split.
    - clear -Fu. induction Fu; cbn; constructor; [|assumption]. rewrite H. ring.
    - clear -Fv. induction Fv; cbn; constructor; [|assumption]. rewrite H. ring.
    - clear -Fx. induction Fx; cbn; constructor; [|assumption]. rewrite H. ring.
  Qed.

  Lemma truncate_ext num f f' h : f_dict C f' = f_dict C f -> f_t C f' = f_t C f ->
    (forall n, index_before_merger (f_phase C f') (f_phase_merger C f') n = index_before_merger (f_phase C f) (f_phase_merger C f) n) ->
    truncate C num f' h = truncate C num f h.
  Proof.
    intros H1 H2 H3. unfold truncate. destruct num as [n|]; [|now rewrite H1]. destruct (Qlt_bool n 0); [reflexivity|]. now rewrite H3, H1, H2.
  Qed.
  Lemma affine_id t : affine 1 0 t t.
  Proof. induction t; constructor; [|assumption]. ring. Qed.
  (** reading when no change of frame is needed *)
  Lemma readw_plain level precessing frame p h d : is_dict h p d -> precessing = false \/ frame <> "inertial" -> one_representation d ->
    readw level precessing frame p h = rest C cabs cphase qsqrt precessing d h.
  Proof.
    intros Hd Hp Hr. rewrite (proj2 (readw_start _ _ _ _ _ _ level precessing frame p h d Hd) Hr).
    now rewrite (step_ok _ _ _ _ _ _ (chosen_plain _ _ _ _ _ level precessing frame p d h Hp)).
  Qed.
  (** the same data with or without the declaration *)
  Definition agree (r s : res (processed C)) : Prop :=
    match r, s with
    | Ok x, Ok y => p_dict C x = p_dict C y /\ (p_t_merger C x == p_t_merger C y)%Q /\ (p_amp_merger C x == p_amp_merger C y)%Q /\ p_width C x = p_width C y
    | Err e, Err e' => e = e'
    | _, _ => False
    end.
  Lemma symmetric_same level frame frame' num p h h0 w r0 : process level false frame' None p h = (h0, (w, Ok r0)) ->
    reflection_symmetric h (p_dict C r0) -> frame <> "inertial" ->
    let P := process level true frame num p h in let S := process level false frame' num p h in
    fst P = fst S /\ fst (snd P) = fst (snd S) /\ agree (snd (snd P)) (snd (snd S)).
  Proof.
    intros H Hs Hf. apply process_none_inv in H. destruct H as (f & H & ->). cbn [p_dict] in Hs.
    assert (HH : exists d, is_dict h p d /\ one_representation d).
    { apply readw_ok in H. destruct H as (d & H). decompose [ex and] H. eauto. }
    destruct HH as (d & Hd & Hr).
    assert (H0 := H). rewrite (readw_plain level false frame' p h d Hd (or_introl eq_refl) Hr) in H0.
    assert (H1 := H0). apply rest_ok in H1. destruct H1 as (-> & -> & t & tz & a & az & ph & pz & om & z & Et & _ & _ & _ & _ & Ef & Eft & Em).
    pose proof Em as Em1. apply mdata_ok in Em1. destruct Em1 as (i & o & omm & p0 & M1 & (aa & M2 & _) & _).
    rewrite Ef in Hs. destruct (sym_gw _ _ _ _ _ Hs M2) as (A' & P' & O' & G & FA & FP & FO).
    assert (X : exists f', mdata true t (new_dict C t tz a az ph pz om z) h = Ok f' /\ f_dict C f' = new_dict C t tz a az ph pz om z /\ f_t C f' = t /\
      (f_t_merger C f' == 1 * f_t_merger C f + 0)%Q /\ (f_amp_merger C f' == f_amp_merger C f)%Q /\ f_width C f' = f_width C f /\
      (forall n, index_before_merger (f_phase C f') (f_phase_merger C f') n = index_before_merger (f_phase C f) (f_phase_merger C f) n)).
    { eapply (mdata_rel false true t t _ h _ h f 1 0 0 a aa (f_phase C f) o A' P' O'); try eassumption; try reflexivity.
      - apply affine_id.
      - apply modes_real, new_amplm.
      - apply modes_real, new_amplm.
      - intros s tm _ E. exists tm. split; [exact E|]. ring.
      - eapply Forall2_imp; [|exact FO]. intros x y E. rewrite E. auto. }
    destruct X as (f' & X & F1 & F2 & F3 & F4 & F5 & F6).
    assert (R : readw level true frame p h = (h, ([], Ok f'))).
    { rewrite (readw_plain level true frame p h d Hd (or_intror Hf) Hr).
      unfold DataLemmas.rest in H0 |- *. rewrite Et in H0 |- *. cbn [arr_of] in H0 |- *.
      rewrite (step_lift _ _ _ _ t eq_refl) in H0. rewrite (step_lift _ _ _ _ t eq_refl).
      apply mbind_ok in H0. destruct H0 as (h1 & w4 & w5 & apo & A1 & A2 & _). apply read_ok in A1. destruct A1 as (-> & _ & A1).
      rewrite (step_read _ _ _ _ apo) by exact A1. apply read_ok in A2. destruct A2 as (_ & _ & A2).
      assert (Nd : (("t", VArr C t) :: match slookup d "t_zeroecc" with Some v => [("t_zeroecc", v)] | None => [] end ++ apo)%list
                   = new_dict C t tz a az ph pz om z).
      { apply mdata_ok in A2. destruct A2 as (? & ? & ? & ? & _ & _ & _ & _ & _ & _ & _ & _ & _ & A2 & _). congruence. }
      rewrite Nd. unfold mread. now rewrite X. }
    assert (PS : process level false frame' num p h = mbind C (truncate C num f) (fun d =>
      mret C {| p_dict := d; p_t_merger := f_t_merger C f; p_amp_merger := f_amp_merger C f; p_width := f_width C f |}) h).
    { rewrite process_reads. now rewrite (step_ok C _ _ _ _ _ H). }
    assert (PP : process level true frame num p h = mbind C (truncate C num f') (fun d =>
      mret C {| p_dict := d; p_t_merger := f_t_merger C f'; p_amp_merger := f_amp_merger C f'; p_width := f_width C f' |}) h).
    { rewrite process_reads. now rewrite (step_ok C _ _ _ _ _ R). }
    cbv zeta. rewrite PP, PS. unfold mbind. rewrite (truncate_ext num f f' h) by congruence.
    destruct (truncate C num f h) as (h1 & w1 & [d1|e]); cbn; auto. split; [reflexivity|]. split; [reflexivity|].
    split; [reflexivity|]. split; [rewrite F3; ring|]. split; assumption.
  Qed.

  (** ** another unit and origin of time *)
  Definition over (a : Q) : list Q -> list Q -> Prop := Forall2 (fun x y => y == x / a)%Q.
  Lemma time_deriv_scale y dt dt' a r : (0 < a)%Q -> (dt' == a * dt)%Q -> time_deriv_4thOrder y dt = Ok r ->
    exists r', time_deriv_4thOrder y dt' = Ok r' /\ over a r r'.
  Proof.
    intros Ha Hd. unfold time_deriv_4thOrder. destruct (length y <? 5); [discriminate|]. destruct (Qeq_bool dt 0) eqn:E; [discriminate|].
    apply Qeq_bool_false in E. assert (E' : Qeq_bool dt' 0 = false) by (apply Qeq_bool_false; intros X; apply E; nra).
    rewrite E'. intros H. apply Ok_inj in H. subst r. eexists. split; [reflexivity|]. unfold over.
    match goal with |- Forall2 _ (map _ ?l) _ => generalize l end. intros l. induction l as [|x l IH]; cbn [map]; constructor; [|exact IH].
    rewrite Hd. field. split; [(intros X; rewrite X in Ha; now apply Qlt_irrefl in Ha) || exact E|exact E || (intros X; rewrite X in Ha; now apply Qlt_irrefl in Ha)].
  Qed.
  Definition modes_rel {A B} (R : A -> B -> Prop) : mdict A -> mdict B -> Prop := Forall2 (fun x y => fst x = fst y /\ R (snd x) (snd y)).
  Lemma map_modes_rel {A B B'} (f : A -> res B) (g : A -> res B') (R : B -> B' -> Prop) : (forall a b, f a = Ok b -> exists b', g a = Ok b' /\ R b b') ->
    forall d s, map_modes f d = Ok s -> exists s', map_modes g d = Ok s' /\ modes_rel R s s'.
  Proof.
    intros H. induction d as [|[k a] d IH]; cbn [map_modes]; intros s E.
    - apply Ok_inj in E. subst s. exists []. split; [reflexivity|constructor].
    - inv_bind E. inv_bind E. apply Ok_inj in E. subst s. destruct (H _ _ E0) as (b' & -> & Hb). destruct (IH _ E1) as (s' & -> & Hs).
      cbn [bind]. eexists. split; [reflexivity|]. constructor; [|exact Hs]. auto.
  Qed.
  Lemma modes_rel_get {A B} (R : A -> B -> Prop) s s' m a : modes_rel R s s' -> mget s m = Ok a -> exists b, mget s' m = Ok b /\ R a b.
  Proof.
    unfold mget, dget. induction 1 as [|[k x] [k' y] s s' [E H] F IH]; cbn [dlookup]; [discriminate|]. cbn [fst snd] in *. subst k'.
    destruct (mode_eqb m k); [|exact IH]. intros X. apply Ok_inj in X. subst x. eauto.
  Qed.
  Lemma omegalm_scale a b t t' ph o : (0 < a)%Q -> affine a b t t' -> get_omegalm_from_phaselm t ph = Ok o ->
    exists o', get_omegalm_from_phaselm t' ph = Ok o' /\ modes_rel (over a) o o'.
  Proof.
    intros Ha Ft. unfold get_omegalm_from_phaselm. destruct ph as [|k ph]; [intros H; apply Ok_inj in H; subst o; exists []; split; [reflexivity|constructor]|].
    intros H. inv_bind H. inv_bind H. generalize (get_rel _ _ _ 1 Ft) (get_rel _ _ _ 0 Ft). rewrite E, E0.
    destruct (get t' 1) as [u1|]; [|contradiction]. destruct (get t' 0) as [u0|]; [|contradiction]. intros R1 R0. cbn [bind].
    eapply map_modes_rel; [|exact H]. intros y r Hr. eapply time_deriv_scale; [exact Ha| |exact Hr]. rewrite R1, R0. ring.
  Qed.
  Lemma gw_scale h h' precessing t tz am az ph pz o z t' tz' az' pz' o' z' a A P O : (0 < a)%Q -> modes_rel (over a) o o' ->
    get_amp_phase_omega_gw C h precessing (new_dict C t tz am az ph pz (VReal C o) z) "" = Ok (A, P, O) ->
    exists O', get_amp_phase_omega_gw C h' precessing (new_dict C t' tz' am az' ph pz' (VReal C o') z') "" = Ok (A, P, O') /\ over a O O'.
  Proof.
    intros Ha Ho. unfold get_amp_phase_omega_gw. cbn [append].
    rewrite (modes_real C h _ "amplm" am (new_amplm C t tz am az ph pz (VReal C o) z)).
    rewrite (modes_real C h _ "phaselm" ph (new_phaselm C t tz am az ph pz (VReal C o) z)).
    rewrite (modes_real C h _ "omegalm" o (new_omegalm C t tz am az ph pz (VReal C o) z)).
    rewrite (modes_real C h' _ "amplm" am (new_amplm C t' tz' am az' ph pz' (VReal C o') z')).
    rewrite (modes_real C h' _ "phaselm" ph (new_phaselm C t' tz' am az' ph pz' (VReal C o') z')).
    rewrite (modes_real C h' _ "omegalm" o' (new_omegalm C t' tz' am az' ph pz' (VReal C o') z')).
    cbn [bind]. destruct precessing; cbn [negb]; intros H.
    - destruct (negb _); [discriminate|]. destruct (negb _); [discriminate|]. cbv zeta in *.
      inv_bind H. rewrite E. cbn [bind]. inv_bind H. rewrite E0. cbn [bind]. inv_bind H. rewrite E1. cbn [bind].
      inv_bind H. rewrite E2. cbn [bind]. inv_bind H. rewrite E3. cbn [bind]. inv_bind H. rewrite E4. cbn [bind].
      inv_bind H. destruct (modes_rel_get _ _ _ _ _ Ho E5) as (b1 & -> & R1). cbn [bind].
      inv_bind H. destruct (modes_rel_get _ _ _ _ _ Ho E6) as (b2 & -> & R2). cbn [bind].
      inv_bind H. apply Ok_inj in H. injection H as <- <- <-. apply zip_ok in E7. destruct E7 as [L ->].
      assert (L2 : length b1 = length b2).
      { transitivity (length v5); [symmetry; clear -R1; induction R1; cbn; congruence|]. rewrite L. clear -R2; induction R2; cbn; congruence. }
      unfold zip_with. rewrite L2, Nat.eqb_refl. cbn [bind]. eexists. split; [reflexivity|].
      clear -R1 R2 Ha. revert v6 b2 R2. induction R1 as [|x y l m H R1 IH]; intros v6 b2 R2; [constructor|]. destruct R2 as [|x2 y2 l2 m2 H2 R2]; [constructor|].
      cbn [map2]. constructor; [|now apply IH]. rewrite H, H2. field. lra.
    - inv_bind H. rewrite E. cbn [bind]. inv_bind H. rewrite E0. cbn [bind]. inv_bind H. destruct (modes_rel_get _ _ _ _ _ Ho E1) as (b1 & -> & R1). cbn [bind].
      apply Ok_inj in H. injection H as <- <- <-. eauto.
  Qed.

  (** a dictionary in which only the time array differs *)
  Lemma retimed_for h p d d' t' sfx : is_dict h p d -> d' = sset d "t" (VArr C t') -> sfx = "" \/ sfx = "_zeroecc" ->
    amplm_for C cabs (set_nth h p (OTop C d')) d' sfx = amplm_for C cabs h d sfx /\
    phaselm_for C cphase (set_nth h p (OTop C d')) d' sfx = phaselm_for C cphase h d sfx.
  Proof.
    intros Hd -> Hs.
    assert (L : forall k, k <> "t" -> slookup (sset d "t" (VArr C t')) k = slookup d k).
    { intros k Hk. rewrite slookup_sset. apply String.eqb_neq in Hk. now rewrite Hk. }
    assert (R : forall v, real_of C (set_nth h p (OTop C (sset d "t" (VArr C t')))) v = real_of C h v /\ cplx_of C (set_nth h p (OTop C (sset d "t" (VArr C t')))) v = cplx_of C h v).
    { intros v. destruct v; auto. cbn. rewrite nth_set. destruct (p =? p0) eqn:E; [|auto]. apply Nat.eqb_eq in E. subst p0. unfold is_dict in Hd. rewrite Hd.
      destruct (p <? length h); auto. }
    unfold amplm_for, phaselm_for. rewrite !L by (destruct Hs as [-> | ->]; discriminate). split.
    - destruct (slookup d ("amplm" ++ sfx)); [apply R|]. destruct (slookup d ("hlm" ++ sfx)) as [v|]; [|reflexivity]. now rewrite (proj2 (R v)).
    - destruct (slookup d ("phaselm" ++ sfx)); [apply R|]. destruct (slookup d ("hlm" ++ sfx)) as [v|]; [|reflexivity]. now rewrite (proj2 (R v)).
  Qed.

  Lemma new_other t tz a az ph pz w z t' w' k : k <> "t" -> k <> "omegalm" ->
    slookup (new_dict C t' tz a az ph pz w' z) k = slookup (new_dict C t tz a az ph pz w z) k.
  Proof.
    intros N1 N2. apply String.eqb_neq in N1, N2. unfold new_dict.
    assert (L : forall (x : string * dval) l, slookup (x :: l) k = if String.eqb k (fst x) then Some (snd x) else slookup l k) by (intros [x1 x2] l; reflexivity).
    rewrite !L. cbn [fst snd]. rewrite N1. repeat (progress (rewrite ?slookup_app, ?L; cbn [fst snd])). rewrite N2. reflexivity.
  Qed.
  Lemma truncate_rel a num f f' h h' h1 w d t tz am az ph pz o z t' o' : (0 < a)%Q ->
    f_dict C f = new_dict C t tz am az ph pz (VReal C o) z -> f_t C f = t ->
    f_dict C f' = new_dict C t' tz am az ph pz (VReal C o') z -> f_t C f' = t' -> modes_rel (over a) o o' ->
    (forall n, index_before_merger (f_phase C f') (f_phase_merger C f') n = index_before_merger (f_phase C f) (f_phase_merger C f) n) ->
    truncate C num f h = (h1, (w, Ok d)) ->
    exists d' idx, truncate C num f' h' = (h', (w, Ok d')) /\ h1 = h /\
      slookup d "t" = Some (VArr C (firstn idx t)) /\ slookup d' "t" = Some (VArr C (firstn idx t')) /\
      slookup d "omegalm" = Some (VReal C (cut_modes idx o)) /\ slookup d' "omegalm" = Some (VReal C (cut_modes idx o')) /\
      (forall k, k <> "t" -> k <> "omegalm" -> slookup d' k = slookup d k).
  Proof.
    intros Ha F1 F2 F3 F4 R I H. unfold truncate in *. destruct num as [n|].
    - destruct (Qlt_bool n 0); [discriminate|]. apply mbind_ok in H. destruct H as [h2 [w1 [w2 [idx [E [H ->]]]]]]. apply lift_ok in E.
      destruct E as [-> [-> E]]. rewrite (step_lift _ _ _ _ idx) by now rewrite I. rewrite F1 in H. rewrite F3.
      erewrite (step_ok _ (cut_entry C idx _ "amplm")) in H; [|apply cut_real, new_amplm].
      erewrite (step_ok _ (cut_entry C idx _ "phaselm")) in H; [|apply cut_real; rewrite slookup_sset; apply new_phaselm].
      erewrite (step_ok _ (cut_entry C idx _ "omegalm")) in H; [|apply cut_real; rewrite !slookup_sset; apply new_omegalm].
      apply ret_ok in H. destruct H as (-> & -> & ->).
      erewrite (step_ok _ (cut_entry C idx _ "amplm")); [|apply cut_real, new_amplm].
      erewrite (step_ok _ (cut_entry C idx _ "phaselm")); [|apply cut_real; rewrite slookup_sset; apply new_phaselm].
      erewrite (step_ok _ (cut_entry C idx _ "omegalm")); [|apply cut_real; rewrite !slookup_sset; apply new_omegalm].
      eexists _, idx. split; [reflexivity|]. split; [reflexivity|]. rewrite F2, F4. rewrite !slookup_sset. cbn [String.eqb Ascii.eqb Bool.eqb].
      repeat (split; [reflexivity|]). intros k N1 N2. rewrite !slookup_sset. apply String.eqb_neq in N1, N2. rewrite N1, N2.
      destruct (String.eqb k "phaselm"); [reflexivity|]. destruct (String.eqb k "amplm"); [reflexivity|].
      apply String.eqb_neq in N1, N2. now apply new_other.
    - apply ret_ok in H. destruct H as (-> & -> & ->).
      assert (L1 : forall m (o : mdict (list Q)), (forall k a, In (k, a) o -> length a <= m) -> cut_modes m o = o).
      { intros m o0. induction o0 as [|[k x] o0 IH]; intros Hm; cbn; [reflexivity|]. rewrite firstn_all2 by (apply (Hm k); now left). f_equal. apply IH. intros. apply (Hm k0). now right. }
      assert (L2 : forall o : mdict (list Q), exists m, forall k a, In (k, a) o -> length a <= m).
      { induction o0 as [|[k x] o0 [m IH]]; [exists 0; contradiction|]. exists (Nat.max m (length x)). intros k0 a0 [X|X]; [injection X as <- <-; lia|]. apply IH in X. lia. }
      destruct (L2 o) as [m1 M1]. destruct (L2 o') as [m2 M2]. set (m := Nat.max (Nat.max m1 m2) (Nat.max (length t) (length t'))).
      exists (f_dict C f'), m. split; [reflexivity|]. split; [reflexivity|]. rewrite F1, F3, !new_t, !new_omegalm.
      rewrite !firstn_all2 by lia. rewrite !L1 by (intros k0 a0 X; first [apply M1 in X|apply M2 in X]; lia). repeat (split; [reflexivity|]).
      intros. now apply new_other.
  Qed.

  Lemma apo_retimed a b h p d t t' r : is_dict h p d -> slookup d "t" = Some (VArr C t) -> slookup d "omegalm" = None -> (0 < a)%Q -> affine a b t t' ->
    get_amp_phase_omega_data C cabs cphase h d = Ok r ->
    exists am az ph pz o o' z,
      r = ((("amplm", VReal C am) :: opt_entry C "amplm_zeroecc" az) ++ (("phaselm", VReal C ph) :: opt_entry C "phaselm_zeroecc" pz) ++ ("omegalm", VReal C o) :: z)%list /\
      get_amp_phase_omega_data C cabs cphase (set_nth h p (OTop C (sset d "t" (VArr C t')))) (sset d "t" (VArr C t')) =
        Ok ((("amplm", VReal C am) :: opt_entry C "amplm_zeroecc" az) ++ (("phaselm", VReal C ph) :: opt_entry C "phaselm_zeroecc" pz) ++ ("omegalm", VReal C o') :: z)%list /\
      modes_rel (over a) o o'.
  Proof.
    intros Hd Ht Ho Ha Ft. unfold get_amp_phase_omega_data, get_amplm_from_dataDict, get_phaselm_from_dataDict.
    destruct (retimed_for h p d _ t' "" Hd eq_refl (or_introl eq_refl)) as [A1 P1].
    destruct (retimed_for h p d _ t' "_zeroecc" Hd eq_refl (or_intror eq_refl)) as [A2 P2]. rewrite A1, A2, P1, P2.
    destruct (amplm_for C cabs h d "") as [am|]; [cbn [bind]|discriminate]. destruct (amplm_for C cabs h d "_zeroecc") as [az|]; [cbn [bind]|discriminate].
    destruct (phaselm_for C cphase h d "") as [ph|]; [cbn [bind]|discriminate]. destruct (phaselm_for C cphase h d "_zeroecc") as [pz|]; [cbn [bind]|discriminate].
    change (match az with [] => [] | _ :: _ => [("amplm_zeroecc", VReal C az)] end) with (opt_entry C "amplm_zeroecc" az).
    change (match pz with [] => [] | _ :: _ => [("phaselm_zeroecc", VReal C pz)] end) with (opt_entry C "phaselm_zeroecc" pz).
    set (ap := ((("amplm", VReal C am) :: opt_entry C "amplm_zeroecc" az) ++ ("phaselm", VReal C ph) :: opt_entry C "phaselm_zeroecc" pz)%list).
    assert (Lp : sget ap "phaselm" = Ok (VReal C ph)) by (unfold ap, opt_entry; destruct az; reflexivity).
    assert (Lz : slookup ap "phaselm_zeroecc" = match pz with [] => None | _ => Some (VReal C pz) end).
    { unfold ap, opt_entry. destruct az, pz; reflexivity. }
    cbv zeta. rewrite Lp, Lz. cbn [bind real_of]. rewrite Ho, !slookup_sset. cbn [String.eqb Ascii.eqb Bool.eqb]. rewrite Ho.
    unfold sget, dget. fold (slookup d "t"). fold (slookup (sset d "t" (VArr C t')) "t"). rewrite Ht, slookup_sset. cbn [String.eqb Ascii.eqb Bool.eqb bind arr_of].
    intros H. inv_bind H. inv_bind E. destruct (omegalm_scale a b t t' ph v0 Ha Ft E0) as (o' & E' & R). rewrite E'. cbn [bind].
    apply Ok_inj in E. subst v. inv_bind H. apply Ok_inj in H.
    exists am, az, ph, pz, v0, o', v. split; [|split; [|exact R]].
    - rewrite <- H. unfold ap. now rewrite <- app_assoc.
    - destruct (slookup d "omegalm_zeroecc") as [ov|].
      + apply Ok_inj in E. subst v. cbn [bind]. unfold ap. now rewrite <- app_assoc.
      + destruct pz as [|kz pz]; [apply Ok_inj in E; subst v; cbn [bind]; unfold ap; now rewrite <- app_assoc|].
        destruct (slookup d "t_zeroecc") as [tv|]; [|apply Ok_inj in E; subst v; cbn [bind]; unfold ap; now rewrite <- app_assoc].
        cbn [bind real_of] in E |- *. rewrite E. cbn [bind]. unfold ap. now rewrite <- app_assoc.
  Qed.
  Lemma sumsq_length dt : forall (ms : mdict (C + list Q)) acc s, sum_squares C cabs dt acc ms = Ok s -> length s = length acc.
  Proof.
    induction ms as [|[k x] ms IH]; cbn [sum_squares]; intros acc s H; [apply Ok_inj in H; now subst s|].
    inv_bind H. inv_bind H. apply IH in H. rewrite H. apply zip_ok in E0. destruct E0 as [L ->]. clear -L. revert v L. induction acc; intros [|y v] L; cbn in *; try discriminate; [reflexivity|].
    f_equal. apply IHacc. lia.
  Qed.
  Lemma total_length (am : mdict (list Q)) s n : (forall m x, In (m, x) am -> length x = n) -> amplitude_using_all_modes C cabs qsqrt "amplm" (real_modes C am) = Ok s -> length s = n.
  Proof.
    intros Hn H. destruct am as [|[k x] am]; [discriminate|]. cbn in H. inv_bind H. apply Ok_inj in H. subst s. apply sumsq_length in E.
    rewrite map_length, E, map_length. apply (Hn k). now left.
  Qed.
  (** another unit and origin of time *)
  Lemma retimed level precessing frame num p h h1 w r d t t' a b : process level precessing frame num p h = (h1, (w, Ok r)) ->
    is_dict h p d -> times_of d t -> ~ has d "omegalm" -> precessing = false \/ frame <> "inertial" -> increasing t ->
    (forall am m x, amplm_for C cabs h d "" = Ok am -> In (m, x) am -> length x = length t) ->
    (0 < a)%Q -> affine a b t t' ->
    let h' := set_nth h p (OTop C (sset d "t" (VArr C t'))) in
    h1 = h /\ exists r', process level precessing frame num p h' = (h', (w, Ok r')) /\
      (p_t_merger C r' == a * p_t_merger C r + b)%Q /\ (p_amp_merger C r' == p_amp_merger C r)%Q /\ p_width C r' = p_width C r /\
      (exists u u', times_of (p_dict C r) u /\ times_of (p_dict C r') u' /\ affine a b u u') /\
      (forall m x, array_of h (p_dict C r) "omegalm" m x -> exists y, array_of h' (p_dict C r') "omegalm" m y /\ over a x y) /\
      (forall key, key <> "t" -> key <> "omegalm" -> slookup (p_dict C r') key = slookup (p_dict C r) key).
  Proof.
    intros H Hd Ht Ho Hp Hi HL Ha Ft h'.
    assert (Ho' : slookup d "omegalm" = None). { destruct (slookup d "omegalm") eqn:E; [|reflexivity]. elim Ho. eapply has_lookup; eauto. }
    rewrite process_reads in H. apply mbind_ok in H. destruct H as (h0 & w1 & w2 & f & E & H & ->).
    apply mbind_ok in H. destruct H as (h2 & w3 & w4 & d2 & E2 & H & ->). apply ret_ok in H. destruct H as (-> & -> & ->).
    assert (Hr : one_representation d).
    { destruct (readw_start C cabs cphase cpolar rotate qsqrt level precessing frame p h d Hd) as [N Y].
      destruct (check_representation C d) eqn:X; [destruct a0; now apply check_ok in X|].
      assert (~ one_representation d) by (intros Z; apply check_ok in Z; congruence). rewrite (N H) in E. discriminate. }
    rewrite (readw_plain _ _ _ _ _ _ Hd Hp Hr) in E.
    pose proof E as E0. unfold DataLemmas.rest in E. unfold times_of in Ht. rewrite Ht in E. cbn [arr_of] in E. rewrite (step_lift _ _ _ _ t eq_refl) in E.
    apply mbind_ok in E. destruct E as (h3 & w5 & w6 & apo & A1 & A2 & ->). apply read_ok in A1. destruct A1 as (-> & -> & A1).
    apply read_ok in A2. destruct A2 as (-> & -> & A2). pose proof (apo_shape _ _ _ _ _ _ A1) as A1'.
    destruct (apo_retimed a b h p d t t' apo Hd Ht Ho' Ha Ft A1) as (am & az & ph & pz & o & o' & z & -> & A1n & R).
    fold (new_dict C t (slookup d "t_zeroecc") am az ph pz (VReal C o) z) in A2.
    assert (Ham : amplm_for C cabs h d "" = Ok am).
    { destruct A1' as (a0 & az0 & ph0 & pz0 & w0 & z0 & B1 & _ & _ & _ & _ & _ & B2). cbn in B2. congruence. }
    pose proof A2 as A3. apply mdata_ok in A3. destruct A3 as (i & O & om & p0 & _ & (A & G & _) & _ & _ & _ & _ & _ & _ & A4 & A5 & _).
    destruct (gw_scale h h' precessing _ _ _ _ _ _ _ _ t' (slookup d "t_zeroecc") az pz _ z a _ _ _ Ha R G) as (O' & G' & RO).
    assert (X : exists f', mdata precessing t' (new_dict C t' (slookup d "t_zeroecc") am az ph pz (VReal C o') z) h' = Ok f' /\
      f_dict C f' = new_dict C t' (slookup d "t_zeroecc") am az ph pz (VReal C o') z /\ f_t C f' = t' /\
      (f_t_merger C f' == a * f_t_merger C f + b)%Q /\ (f_amp_merger C f' == f_amp_merger C f)%Q /\ f_width C f' = f_width C f /\
      (forall n, index_before_merger (f_phase C f') (f_phase_merger C f') n = index_before_merger (f_phase C f) (f_phase_merger C f) n)).
    { eapply (mdata_rel precessing precessing t t' _ h _ h' f a b 0 am A (f_phase C f) O A (f_phase C f) O'); try eassumption.
      - apply modes_real, new_amplm.
      - apply modes_real, new_amplm.
      - intros s tm Es Etm. eapply peak_affine; try eassumption. rewrite (total_length am s (length t)); [reflexivity| |exact Es]. intros m x. apply HL. exact Ham.
      - apply Forall2_Qrefl.
      - clear. unfold moved. induction (f_phase C f); constructor; [ring|assumption].
      - eapply Forall2_imp; [|exact RO]. intros x y Exy Hx. rewrite Exy. apply Qle_shift_div_l; [exact Ha|]. lra. }
    destruct X as (f' & M & F1 & F2 & F3 & F4 & F5 & F6).
    destruct (truncate_rel a num f f' h h' _ _ _ t _ am az ph pz o z t' o' Ha A5 A4 F1 F2 R F6 E2) as (d' & idx & T1 & -> & T2 & T3 & T4 & T5 & T6).
    split; [reflexivity|]. eexists. split.
    - rewrite process_reads. assert (Hd' : is_dict h' p (sset d "t" (VArr C t'))).
      { unfold is_dict, h'. rewrite nth_set, Nat.eqb_refl. assert (p < length h) by (apply nth_error_Some; unfold is_dict in Hd; congruence).
        apply Nat.ltb_lt in H. now rewrite H. }
      assert (Hr' : one_representation (sset d "t" (VArr C t'))).
      { assert (K : forall k, k <> "t" -> (has (sset d "t" (VArr C t')) k <-> has d k)).
        { intros k Hk. apply String.eqb_neq in Hk.
          split; intros X; apply lookup_has in X; destruct X as [v X]; eapply has_lookup; [rewrite slookup_sset, Hk in X|rewrite slookup_sset, Hk]; exact X. }
        unfold one_representation in *. rewrite !K by discriminate. exact Hr. }
      rewrite (step_ok _ _ _ h' h' f').
      2: { rewrite (readw_plain _ _ _ _ _ _ Hd' Hp Hr'). unfold DataLemmas.rest. rewrite slookup_sset. cbn [String.eqb Ascii.eqb Bool.eqb arr_of].
           rewrite (step_lift _ _ _ _ t' eq_refl). rewrite (step_read _ _ _ _ _ A1n). rewrite slookup_sset. cbn [String.eqb Ascii.eqb Bool.eqb].
           unfold mread, new_dict in *. fold h'. unfold lift, lret. f_equal. f_equal. exact M. }
      unfold mbind at 1. rewrite T1. cbn [fst snd app]. unfold mret, lret. cbn [fst snd]. rewrite app_nil_r. reflexivity.
    - cbn [p_dict p_t_merger p_amp_merger p_width]. split; [exact F3|]. split; [exact F4|]. split; [exact F5|]. split; [|split].
      + exists (firstn idx t), (firstn idx t'). split; [exact T2|]. split; [exact T3|]. now apply Forall2_firstn.
      + intros m x Hx. apply (array_real _ _ _ _ _ _ _ T4) in Hx. apply cut_array in Hx. destruct Hx as (y & Hy & ->).
        apply mget_ok in Hy. destruct (modes_rel_get _ _ _ _ _ R Hy) as (y' & Hy' & Ry). exists (firstn idx y'). split; [|now apply Forall2_firstn].
        apply (array_real _ _ _ _ _ _ _ T5), cut_array. exists y'. split; [now apply mget_ok|reflexivity].
      + exact T6.
  Qed.
End S.

(** what is combined for precessing systems *)
Lemma gw_combined C h precessing d A P O : get_amp_phase_omega_gw C h precessing d "" = Ok (A, P, O) ->
  if precessing then
    combined h d "amplm" (fun x y => (1 # 2) * (x + y))%Q A /\ combined h d "phaselm" (fun x y => (1 # 2) * (x - y))%Q P /\
    combined h d "omegalm" (fun x y => (1 # 2) * (x - y))%Q O
  else array_of h d "amplm" (2, 2)%Z A /\ array_of h d "phaselm" (2, 2)%Z P /\ array_of h d "omegalm" (2, 2)%Z O.
Proof.
  assert (Z : forall f u v r, zip_with f u v = Ok r -> length u = length v /\ length r = length u /\
    forall k x y, nth_error u k = Some x -> nth_error v k = Some y -> nth_error r k = Some (f x y)).
  { intros f u v r H. apply zip_ok in H. destruct H as [L ->]. split; [exact L|]. split; [rewrite map2_length; lia|].
    intros k x y Hx Hy. now rewrite nth_error_map2, Hx, Hy. }
  unfold get_amp_phase_omega_gw. cbn [append]. destruct precessing; cbn [negb]; intros H.
  - inv_bind H. destruct (negb _); [discriminate|]. inv_bind H. destruct (negb _); [discriminate|]. cbv zeta in H.
    do 10 inv_bind H. apply Ok_inj in H. injection H as <- <- <-. unfold combined.
    split; [|split].
    + exists v1, v2. pose proof (Z _ _ _ _ E3) as (K1 & K2 & K3). split; [eapply real_array; eassumption|]. split; [eapply real_array; eassumption|]. auto.
    + exists v4, v5. pose proof (Z _ _ _ _ E6) as (K1 & K2 & K3). split; [eapply real_array; eassumption|]. split; [eapply real_array; eassumption|]. auto.
    + exists v8, v9. pose proof (Z _ _ _ _ E10) as (K1 & K2 & K3). split; [eapply real_array; eassumption|]. split; [eapply real_array; eassumption|]. auto.
  - do 6 inv_bind H. apply Ok_inj in H. injection H as <- <- <-. split; [|split]; eapply real_array; eassumption.
Qed.
Lemma symmetric_data C (h : heap C) d A P O : reflection_symmetric h d ->
  get_amp_phase_omega_gw C h false d "" = Ok (A, P, O) ->
  exists A' P' O', get_amp_phase_omega_gw C h true d "" = Ok (A', P', O') /\ Forall2 Qeq A A' /\ Forall2 Qeq P P' /\ Forall2 Qeq O O'.
Proof.
  intros Hs H. destruct (sym_gw C h d A P O Hs H) as (A' & P' & O' & G & F1 & F2 & F3). exists A', P', O'. repeat (split; [assumption|]).
  split; [|assumption]. eapply Forall2_imp; [|exact F2]. cbv beta. intros x y E. rewrite E. ring.
Qed.
Section S2.
  Variable C : Type.
  Variable cabs cphase : C -> list Q.
  Variable cpolar : list Q -> list Q -> res C.
  Variable rotate : list Q -> list C -> res (list C).
  Variable qsqrt : Q -> Q.
  Notation process := (process_data_dict C cabs cphase cpolar rotate qsqrt).
  Lemma accepted level precessing frame num p (h h' : heap C) w r : process level precessing frame num p h = (h', (w, Ok r)) ->
    exists d, is_dict h p d /\ one_representation d /\ has d "t".
  Proof.
    intros H. destruct (process_needs_dict _ _ _ _ _ _ _ _ _ _ _ _ _ _ _ H) as (d & H1 & H2). exists d. split; [exact H1|]. split; [exact H2|].
    eapply process_needs_t; eassumption.
  Qed.
  Lemma without_time level precessing frame num p (h : heap C) d : is_dict h p d -> ~ has d "t" ->
    (exists e, snd (snd (process level precessing frame num p h)) = Err e) /\
    (precessing = false \/ frame <> "inertial" -> process level precessing frame num p h = (h, ([], Err GenericException))).
  Proof. intros H1 H2. split; [eapply no_time; eassumption|]. intros. eapply no_time_plain; eassumption. Qed.
  Lemma second_same level precessing frame num p (h : heap C) d : is_dict h p d ->
    (precessing = true -> frame = "inertial" -> has d "hlm") ->
    num = None \/ ~ has d "omegalm" \/ (precessing = true /\ frame = "inertial") ->
    let call := process level precessing frame num p in call (fst (call h)) = call h.
  Proof. intros H1 H2 H3. cbv zeta. erewrite process_same; try eassumption. reflexivity. Qed.
End S2.
