(** Proofs about np.unwrap and the comparison of two measurements. *)
From Coq Require Import Lia Lqa Sorted Qabs Qround.
From Verif Require Import Base BaseLemmas UtilsModel UtilsSpec DataModel DataLemmas2 FilterModel FilterSpec FilterLemmas HelperModel HelperSpec.
Open Scope nat_scope.

(** ** unwrap *)
Lemma pi_pos : (0 < np_pi)%Q.
Proof. reflexivity. Qed.
Lemma mod_range x p : (0 < p)%Q -> (0 <= np_mod x p /\ np_mod x p < p)%Q.
Proof.
  intros P. unfold np_mod. assert (A := Qfloor_le (x / p)). assert (B := Qlt_floor (x / p)).
  assert (E : (x == p * (x / p))%Q) by (field; intros Z0; rewrite Z0 in P; now apply Qlt_irrefl in P).
  assert (U : (p * inject_Z (Qfloor (x / p)) <= p * (x / p))%Q) by (apply Qmult_le_l; assumption).
  assert (V : (p * (x / p) < p * inject_Z (Qfloor (x / p) + 1))%Q) by (apply Qmult_lt_l; assumption).
  rewrite inject_Z_plus in V. change (inject_Z 1) with 1%Q in V. rewrite <- E in U, V. split; lra.
Qed.
Lemma step_ok dd : (exists z : Z, unwrap_step dd == inject_Z z * (2 * np_pi))%Q /\ (Qabs (dd + unwrap_step dd) <= np_pi)%Q.
Proof.
  unfold unwrap_step. destruct (Qlt_bool (Qabs dd) np_pi) eqn:B.
  - apply Qlt_bool_iff in B. split; [exists 0%Z; unfold inject_Z; ring|]. rewrite Qplus_0_r. lra.
  - cbv zeta. assert (P2 : (0 < 2 * np_pi)%Q) by reflexivity. destruct (mod_range (dd + np_pi) (2 * np_pi) P2) as [R1 R2].
    assert (Z1 : exists z : Z, (np_mod (dd + np_pi) (2 * np_pi) - np_pi - dd == inject_Z z * (2 * np_pi))%Q).
    { exists (- Qfloor ((dd + np_pi) / (2 * np_pi)))%Z. unfold np_mod. rewrite inject_Z_opp. ring. }
    set (m := (np_mod (dd + np_pi) (2 * np_pi) - np_pi)%Q) in *. assert (M : (- np_pi <= m /\ m < np_pi)%Q) by (unfold m; split; lra).
    destruct (Qeq_bool m (- np_pi) && Qlt_bool 0 dd)%bool eqn:E.
    + apply andb_true_iff in E. destruct E as [E _]. apply Qeq_bool_iff in E. split.
      * destruct Z1 as [z Z1]. exists (z + 1)%Z. rewrite inject_Z_plus. change (inject_Z 1) with 1%Q. rewrite Qmult_plus_distr_l, <- Z1, E. ring.
      * apply Qabs_case; intros; lra.
    + split; [exact Z1|]. apply Qabs_case; intros; lra.
Qed.
Lemma cumsum_length y : forall acc, length (cumsum_from acc y) = length y.
Proof. induction y as [|a y IH]; intros acc; cbn; [reflexivity|now rewrite IH]. Qed.
Lemma cumsum_next y : forall acc k a b c, nth_error y (S k) = Some a -> nth_error (cumsum_from acc y) k = Some b -> nth_error (cumsum_from acc y) (S k) = Some c -> (c == b + a)%Q.
Proof.
  induction y as [|x y IH]; intros acc k a b c A B C; [discriminate|]. cbn [cumsum_from nth_error] in *. destruct k as [|k]; [|eapply IH; eauto].
  cbn in B. apply Some_inj in B. subst b. destruct y as [|x' y]; [discriminate|]. cbn in A, C. apply Some_inj in A, C. subst. reflexivity.
Qed.
(** each step of the unwrapped data is the step of the data and its correction *)
Lemma unwrap_length l : length (unwrap l) = length l.
Proof.
  destruct l as [|a r]; [reflexivity|]. cbn [unwrap length]. rewrite map2_length. unfold cumsum. rewrite cumsum_length, map_length, qdiff_length. cbn [length]. lia.
Qed.
Lemma unwrap_next l k a b u v : nth_error l k = Some a -> nth_error l (S k) = Some b -> nth_error (unwrap l) k = Some u -> nth_error (unwrap l) (S k) = Some v ->
  (v - u == (b - a) + unwrap_step (b - a))%Q.
Proof.
  destruct l as [|x r]; [destruct k; discriminate|]. intros A B U V.
  assert (D : nth_error (map unwrap_step (qdiff (x :: r))) k = Some (unwrap_step (b - a))).
  { rewrite nth_error_map. assert (X : nth_error (qdiff (x :: r)) k = Some (b - a)%Q) by (apply qdiff_nth; eauto). now rewrite X. }
  change (unwrap (x :: r)) with (x :: map2 Qplus r (cumsum (map unwrap_step (qdiff (x :: r))))) in U, V. remember (map unwrap_step (qdiff (x :: r))) as st.
  cbn [nth_error] in B, V. rewrite nth_error_map2, B in V. destruct (nth_error (cumsum st) k) as [c|] eqn:C; [|discriminate]. apply Some_inj in V. subst v.
  destruct k as [|k]; cbn [nth_error] in *.
  - apply Some_inj in A, U. subst a u. destruct st as [|s st]; [discriminate|]. cbn in D, C. apply Some_inj in D, C. subst. ring.
  - rewrite nth_error_map2, A in U. destruct (nth_error (cumsum st) k) as [c'|] eqn:C'; [|discriminate]. apply Some_inj in U. subst u.
    unfold cumsum in *. rewrite (cumsum_next st 0 k _ _ _ D C' C). ring.
Qed.
Lemma unwrap_first l : nth_error (unwrap l) 0 = nth_error l 0.
Proof. destruct l; reflexivity. Qed.
Lemma turns_step a b u v : turns a u -> (exists z : Z, v - u == (b - a) + inject_Z z * (2 * np_pi))%Q -> turns b v.
Proof. intros [z A] [y B]. exists (z + y)%Z. rewrite inject_Z_plus, Qmult_plus_distr_l, <- A. assert (X : (v == u + ((b - a) + inject_Z y * (2 * np_pi)))%Q) by (rewrite <- B; ring). rewrite X. ring. Qed.
Lemma unwrap_ok l : unwrapped l (unwrap l).
Proof.
  split; [apply unwrap_length|]. split; [apply unwrap_first|]. split.
  - induction k as [|k IH]; intros a b A B.
    + rewrite unwrap_first, A in B. apply Some_inj in B. subst. exists 0%Z. unfold inject_Z. ring.
    + assert (K : k < length l) by (assert (S k < length l) by (apply nth_error_Some; congruence); lia).
      destruct (nth_error l k) as [a'|] eqn:A'; [|apply nth_error_None in A'; lia].
      destruct (nth_error (unwrap l) k) as [b'|] eqn:B'; [|apply nth_error_None in B'; rewrite unwrap_length in B'; lia].
      apply (turns_step a' a b' b); [now apply IH|]. destruct (step_ok (a - a')) as [[z Z1] _]. exists z. rewrite <- Z1. eapply unwrap_next; eauto.
  - intros k u v U V. assert (K : S k < length l) by (rewrite <- unwrap_length; apply nth_error_Some; congruence).
    destruct (nth_error l k) as [a|] eqn:A; [|apply nth_error_None in A; lia]. destruct (nth_error l (S k)) as [b|] eqn:B; [|apply nth_error_None in B; lia].
    rewrite (unwrap_next l k a b u v A B U V). apply step_ok.
Qed.
(** two values of a step that agree up to whole turns *)
Lemma between_turns z : (inject_Z z * (2 * np_pi) < 2 * np_pi -> - (2 * np_pi) < inject_Z z * (2 * np_pi) -> z = 0%Z)%Q.
Proof.
  intros A B. assert (P : (0 < 2 * np_pi)%Q) by reflexivity.
  assert (A' : (inject_Z z < 1)%Q) by (apply (Qmult_lt_r _ _ (2 * np_pi) P); lra). assert (B' : (-1 < inject_Z z)%Q) by (apply (Qmult_lt_r _ _ (2 * np_pi) P); lra).
  change 1%Q with (inject_Z 1) in A'. change (-1)%Q with (inject_Z (-1)) in B'. rewrite <- Zlt_Qlt in A', B'. lia.
Qed.
Lemma half_turn x y : (Qabs x <= np_pi)%Q -> (Qabs y <= np_pi)%Q -> turns x y -> (forall z : Z, ~ x == inject_Z (2 * z + 1) * np_pi)%Q -> (x == y)%Q.
Proof.
  intros X Y [z Z1] N. apply Qabs_Qle_condition in X, Y.
  assert (X1 : ~ (x == np_pi)%Q) by (intros E; apply (N 0%Z); rewrite E; unfold inject_Z; cbn; ring).
  assert (X2 : ~ (x == - np_pi)%Q) by (intros E; apply (N (-1)%Z); rewrite E; unfold inject_Z; cbn; ring).
  assert (z = 0%Z). { apply between_turns; rewrite <- Z1.
    - assert (- np_pi < x)%Q. { destruct X as [X _]. apply Qle_lteq in X. destruct X as [X|X]; [exact X|exfalso; apply X2; now symmetry]. } lra.
    - assert (x < np_pi)%Q. { destruct X as [_ X]. apply Qle_lteq in X. destruct X as [X|X]; [exact X|exfalso; now apply X1]. } lra. }
  subst z. unfold inject_Z in Z1. assert (E : (y - x == 0)%Q) by (rewrite Z1; ring). lra.
Qed.
(** if two arrays agree up to whole turns, their unwrapped versions differ by a constant *)
Lemma unwrap_offset l m : length l = length m -> (forall k a b, nth_error l k = Some a -> nth_error m k = Some b -> turns a b) -> no_half_turns l ->
  forall k a0 b0 u v, nth_error l 0 = Some a0 -> nth_error m 0 = Some b0 -> nth_error (unwrap l) k = Some u -> nth_error (unwrap m) k = Some v -> (u - v == a0 - b0)%Q.
Proof.
  intros L T N k a0 b0. induction k as [|k IH]; intros u v A0 B0 U V.
  - rewrite unwrap_first in U, V. rewrite A0 in U. rewrite B0 in V. apply Some_inj in U, V. now subst.
  - assert (K : S k < length l) by (rewrite <- unwrap_length; apply nth_error_Some; congruence).
    destruct (nth_error l k) as [a|] eqn:A; [|apply nth_error_None in A; lia]. destruct (nth_error l (S k)) as [a'|] eqn:A'; [|apply nth_error_None in A'; lia].
    destruct (nth_error m k) as [b|] eqn:B; [|apply nth_error_None in B; lia]. destruct (nth_error m (S k)) as [b'|] eqn:B'; [|apply nth_error_None in B'; lia].
    destruct (nth_error (unwrap l) k) as [u'|] eqn:U'; [|apply nth_error_None in U'; rewrite unwrap_length in U'; lia].
    destruct (nth_error (unwrap m) k) as [v'|] eqn:V'; [|apply nth_error_None in V'; rewrite unwrap_length in V'; lia].
    assert (SU := unwrap_next l k a a' u' u A A' U' U). assert (SV := unwrap_next m k b b' v' v B B' V' V).
    assert (I := IH u' v' A0 B0 eq_refl eq_refl).
    assert (E : (u - u' == v - v')%Q); [|lra].
    destruct (step_ok (a' - a)) as [[z1 Z1] R1]. destruct (step_ok (b' - b)) as [[z2 Z2] R2].
    destruct (T k a b A B) as [y1 Y1]. destruct (T (S k) a' b' A' B') as [y2 Y2].
    rewrite <- SU in R1. rewrite <- SV in R2. rewrite Z1 in SU. rewrite Z2 in SV.
    apply half_turn; [exact R1|exact R2| |].
    + exists (y2 - y1 + z2 - z1)%Z. unfold Z.sub. rewrite !inject_Z_plus, !inject_Z_opp. rewrite SU, SV.
      setoid_replace (b' - b + inject_Z z2 * (2 * np_pi) - (a' - a + inject_Z z1 * (2 * np_pi)))%Q with ((b' - a') - (b - a) + inject_Z z2 * (2 * np_pi) - inject_Z z1 * (2 * np_pi))%Q by ring.
      rewrite Y1, Y2. ring.
    + intros z Z0. apply (N k a a' (z - z1)%Z A A'). rewrite SU in Z0.
      assert (X : (a' - a == inject_Z (2 * z + 1) * np_pi - inject_Z z1 * (2 * np_pi))%Q) by (rewrite <- Z0; ring). rewrite X.
      unfold Z.sub. rewrite !inject_Z_plus, !inject_Z_mult, !inject_Z_plus, !inject_Z_opp. change (inject_Z 2) with 2%Q. change (inject_Z 1) with 1%Q. ring.
Qed.

(** ** comparison *)
Lemma allclose_ok a b : assert_allclose a b = Ok tt <-> close_to a b.
Proof.
  unfold assert_allclose, close_to. destruct (Nat.eqb_spec (length a) (length b)) as [L|L]; cbn [andb]; [|split; [discriminate|intros [X _]; congruence]].
  assert (G : forallb (fun p => Qle_bool (Qabs (fst p - snd p)) ((1 # 10000000) * Qabs (snd p))) (combine a b) = true <->
    forall k x y, nth_error a k = Some x -> nth_error b k = Some y -> (Qabs (x - y) <= (1 # 10000000) * Qabs y)%Q).
  { revert b L. induction a as [|x a IH]; intros [|y b] L; try discriminate; cbn [combine forallb].
    - split; [intros _ [|k] ? ?; discriminate|reflexivity].
    - rewrite andb_true_iff, IH by (cbn in L; congruence). cbn [fst snd]. rewrite Qle_bool_iff. split.
      + intros [A B] [|k] u v U V; cbn in U, V; [apply Some_inj in U, V; now subst|eauto].
      + intros A. split; [apply (A 0); reflexivity|]. intros k u v U V. now apply (A (S k)). }
  destruct (forallb _ _) eqn:E.
  - split; [intros _; split; [exact L|now apply G]|reflexivity].
  - split; [discriminate|]. intros [_ X]. apply G in X. congruence.
Qed.
Lemma allclose_err a b e : assert_allclose a b = Err e -> e = AssertionError.
Proof. unfold assert_allclose. destruct (_ && _)%bool; congruence. Qed.
Lemma masked_ok {A} lo hi t (v r : list A) : masked lo hi t v = Ok r -> length t = length v /\ picked (from_until lo hi) t v r.
Proof.
  unfold masked. destruct (Nat.eqb_spec (length t) (length v)) as [L|]; [|discriminate]. intros H. split; [exact L|].
  exists (where_idx (fun x => (Qle_bool lo x && Qlt_bool x hi)%bool) t). split; [apply where_idx_sorted|]. split; [|split; [eapply gather_length; eauto|]].
  - intros i. rewrite where_idx_in. unfold from_until. split; intros (x & X & P); exists x; (split; [exact X|]).
    + apply andb_true_iff in P. now rewrite Qle_bool_iff, Qlt_bool_iff in P.
    + apply andb_true_iff. now rewrite Qle_bool_iff, Qlt_bool_iff.
  - intros k i I. assert (K : k < length r) by (rewrite (gather_length _ _ _ H); apply nth_error_Some; congruence).
    destruct (nth_error r k) as [a|] eqn:R; [|apply nth_error_None in R; lia]. split; [|discriminate].
    apply (gather_nth _ _ _ H) in R. destruct R as (j & J & V). rewrite I in J. apply Some_inj in J. now subst j.
Qed.
Lemma masked_total {A} lo hi t (v : list A) : length v = length t -> exists r, masked lo hi t v = Ok r.
Proof.
  intros L. unfold masked. rewrite L, Nat.eqb_refl. apply gather_total. apply Forall_forall. intros i I. apply where_idx_in in I. destruct I as (a & I & _).
  rewrite L. apply nth_error_Some. congruence.
Qed.
Lemma masked_err {A} lo hi t (v : list A) e : masked lo hi t v = Err e -> e = IndexError.
Proof.
  unfold masked. destruct (_ =? _); [|congruence]. generalize (where_idx (fun x => Qle_bool lo x && Qlt_bool x hi)%bool t). induction l as [|i l IH]; cbn; [discriminate|].
  destruct (get v i) eqn:G; cbn; [|intros H; apply get_err in G; destruct G; congruence]. destruct (gather v l) eqn:E; cbn; [discriminate|]. intros H. apply IH. congruence.
Qed.
Lemma zip_err f a b e : zip_with f a b = Err e -> e = ValueError.
Proof. unfold zip_with. destruct (_ =? _); congruence. Qed.
Definition lower (o1 o2 : measured) (tmin : option Q) : Q := match tmin with None => Qmaxb (ms_tmin o1) (ms_tmin o2) | Some x => Qmaxb (Qmaxb (ms_tmin o1) (ms_tmin o2)) x end.
Definition upper (o1 o2 : measured) (tmax : option Q) : Q := match tmax with None => Qminb (ms_tmax o1) (ms_tmax o2) | Some x => Qminb (Qminb (ms_tmax o1) (ms_tmax o2)) x end.
Lemma lower_latest o1 o2 tmin : latest (ms_tmin o1 :: ms_tmin o2 :: given tmin) (lower o1 o2 tmin).
Proof.
  unfold lower, latest. destruct (Qmaxb_spec (ms_tmin o1) (ms_tmin o2)) as (A & B & C). destruct tmin as [x|]; cbn [given In].
  - destruct (Qmaxb_spec (Qmaxb (ms_tmin o1) (ms_tmin o2)) x) as (D & E & F). split.
    + destruct F as [F|F]; rewrite F; [destruct C as [C|C]; rewrite C; auto|auto].
    + intros y [<-|[<-|[<-|[]]]]; lra.
  - split; [destruct C as [C|C]; rewrite C; auto|]. intros y [<-|[<-|[]]]; assumption.
Qed.
Lemma upper_earliest o1 o2 tmax : earliest (ms_tmax o1 :: ms_tmax o2 :: given tmax) (upper o1 o2 tmax).
Proof.
  unfold upper, earliest. destruct (Qminb_spec (ms_tmax o1) (ms_tmax o2)) as (A & B & C). destruct tmax as [x|]; cbn [given In].
  - destruct (Qminb_spec (Qminb (ms_tmax o1) (ms_tmax o2)) x) as (D & E & F). split.
    + destruct F as [F|F]; rewrite F; [destruct C as [C|C]; rewrite C; auto|auto].
    + intros y [<-|[<-|[<-|[]]]]; lra.
  - split; [destruct C as [C|C]; rewrite C; auto|]. intros y [<-|[<-|[]]]; assumption.
Qed.
(** the part after the bounds *)
Definition errors_within (o1 o2 : measured) (lo hi : Q) : res comparison :=
  do t1 <- masked lo hi (ms_tref_out o1) (ms_tref_out o1);
  do t2 <- masked lo hi (ms_tref_out o2) (ms_tref_out o2);
  do _ <- assert_allclose t1 t2;
  do e1 <- masked lo hi (ms_tref_out o1) (ms_ecc o1);
  do e2 <- masked lo hi (ms_tref_out o2) (ms_ecc o2);
  do ee <- zip_with (fun a b => Qabs (a - b)) e1 e2;
  do m1 <- masked lo hi (ms_tref_out o1) (ms_ano o1);
  do m2 <- masked lo hi (ms_tref_out o2) (ms_ano o2);
  do me <- zip_with (fun a b => Qabs (a - b)) (unwrap m1) (unwrap m2);
  Ok {| cp_t := t1; cp_ecc_errors := ee; cp_ano_errors := me; cp_ecc1 := e1; cp_ecc2 := e2; cp_ano1 := m1; cp_ano2 := m2 |}.
Definition out_of_bounds (o1 o2 : measured) (tmin tmax : option Q) : Prop :=
  (exists x, tmin = Some x /\ (upper o1 o2 None < x)%Q) \/ (exists x, tmax = Some x /\ (x < lower o1 o2 tmin)%Q).
Lemma compute_cases o1 o2 tmin tmax :
  (compute_errors_between_methods o1 o2 tmin tmax = Err AssertionError /\ ~ close_to (ms_tref_in o1) (ms_tref_in o2)) \/
  (compute_errors_between_methods o1 o2 tmin tmax = Err GenericException /\ close_to (ms_tref_in o1) (ms_tref_in o2) /\ out_of_bounds o1 o2 tmin tmax) \/
  (compute_errors_between_methods o1 o2 tmin tmax = errors_within o1 o2 (lower o1 o2 tmin) (upper o1 o2 tmax) /\
   close_to (ms_tref_in o1) (ms_tref_in o2) /\ ~ out_of_bounds o1 o2 tmin tmax).
Proof.
  unfold compute_errors_between_methods. destruct (assert_allclose (ms_tref_in o1) (ms_tref_in o2)) as [[]|e] eqn:A.
  2:{ left. rewrite (allclose_err _ _ _ A) in *. split; [reflexivity|]. intros X. apply allclose_ok in X. congruence. }
  right. apply allclose_ok in A. cbn [bind]. cbv zeta. unfold out_of_bounds, lower, upper.
  destruct tmin as [x|].
  - destruct (Qlt_bool (Qminb (ms_tmax o1) (ms_tmax o2)) x) eqn:B1; cbn [bind].
    + left. split; [reflexivity|]. split; [exact A|]. left. exists x. split; [reflexivity|now apply Qlt_bool_iff].
    + apply Qlt_bool_false in B1. destruct tmax as [y|].
      * destruct (Qlt_bool y _) eqn:B2; cbn [bind].
        { left. split; [reflexivity|]. split; [exact A|]. right. exists y. split; [reflexivity|now apply Qlt_bool_iff]. }
        { right. apply Qlt_bool_false in B2. split; [reflexivity|]. split; [exact A|]. intros [(z & E & G)|(z & E & G)]; apply Some_inj in E; subst z; now apply (Qlt_not_le _ _ G). }
      * right. split; [reflexivity|]. split; [exact A|]. intros [(z & E & G)|(z & E & G)]; [apply Some_inj in E; subst z; now apply (Qlt_not_le _ _ G)|discriminate].
  - cbn [bind]. destruct tmax as [y|].
    + destruct (Qlt_bool y _) eqn:B2; cbn [bind].
      * left. split; [reflexivity|]. split; [exact A|]. right. exists y. split; [reflexivity|now apply Qlt_bool_iff].
      * right. apply Qlt_bool_false in B2. split; [reflexivity|]. split; [exact A|]. intros [(z & E & G)|(z & E & G)]; [discriminate|]. apply Some_inj in E; subst z; now apply (Qlt_not_le _ _ G).
    + right. split; [reflexivity|]. split; [exact A|]. intros [(z & E & _)|(z & E & _)]; discriminate.
Qed.
Lemma within_ok o1 o2 lo hi r : errors_within o1 o2 lo hi = Ok r ->
  picked (from_until lo hi) (ms_tref_out o1) (ms_tref_out o1) (cp_t r) /\
  (exists t2, picked (from_until lo hi) (ms_tref_out o2) (ms_tref_out o2) t2 /\ close_to (cp_t r) t2) /\
  picked (from_until lo hi) (ms_tref_out o1) (ms_ecc o1) (cp_ecc1 r) /\ picked (from_until lo hi) (ms_tref_out o2) (ms_ecc o2) (cp_ecc2 r) /\
  picked (from_until lo hi) (ms_tref_out o1) (ms_ano o1) (cp_ano1 r) /\ picked (from_until lo hi) (ms_tref_out o2) (ms_ano o2) (cp_ano2 r) /\
  pointwise distance (cp_ecc1 r) (cp_ecc2 r) (cp_ecc_errors r) /\
  pointwise distance (unwrap (cp_ano1 r)) (unwrap (cp_ano2 r)) (cp_ano_errors r).
Proof.
  unfold errors_within. intros H. apply bind_ok in H; destruct H as (t1 & T1 & H). apply bind_ok in H; destruct H as (t2 & T2 & H).
  apply bind_ok in H; destruct H as ([] & A & H). apply bind_ok in H; destruct H as (e1 & E1 & H). apply bind_ok in H; destruct H as (e2 & E2 & H).
  apply bind_ok in H; destruct H as (ee & EE & H). apply bind_ok in H; destruct H as (m1 & M1 & H). apply bind_ok in H; destruct H as (m2 & M2 & H).
  apply bind_ok in H; destruct H as (me & ME & H). apply Ok_inj in H. subst r. cbn [cp_t cp_ecc_errors cp_ano_errors cp_ecc1 cp_ecc2 cp_ano1 cp_ano2].
  apply masked_ok in T1, T2, E1, E2, M1, M2. apply zip_pointwise in EE, ME. apply allclose_ok in A.
  destruct T1 as [_ T1], T2 as [_ T2], E1 as [_ E1], E2 as [_ E2], M1 as [_ M1], M2 as [_ M2].
  split; [exact T1|]. split; [exists t2; auto|]. repeat (split; [assumption|]). assumption.
Qed.
Lemma compared o1 o2 tmin tmax r : compute_errors_between_methods o1 o2 tmin tmax = Ok r ->
  exists lo hi t2 u1 u2, latest (ms_tmin o1 :: ms_tmin o2 :: given tmin) lo /\ earliest (ms_tmax o1 :: ms_tmax o2 :: given tmax) hi /\
    picked (from_until lo hi) (ms_tref_out o1) (ms_tref_out o1) (cp_t r) /\ picked (from_until lo hi) (ms_tref_out o2) (ms_tref_out o2) t2 /\ close_to (cp_t r) t2 /\
    picked (from_until lo hi) (ms_tref_out o1) (ms_ecc o1) (cp_ecc1 r) /\ picked (from_until lo hi) (ms_tref_out o2) (ms_ecc o2) (cp_ecc2 r) /\
    picked (from_until lo hi) (ms_tref_out o1) (ms_ano o1) (cp_ano1 r) /\ picked (from_until lo hi) (ms_tref_out o2) (ms_ano o2) (cp_ano2 r) /\
    pointwise distance (cp_ecc1 r) (cp_ecc2 r) (cp_ecc_errors r) /\
    unwrapped (cp_ano1 r) u1 /\ unwrapped (cp_ano2 r) u2 /\ pointwise distance u1 u2 (cp_ano_errors r).
Proof.
  intros H. destruct (compute_cases o1 o2 tmin tmax) as [[E _]|[[E _]|[E _]]]; rewrite E in H; try discriminate.
  destruct (within_ok _ _ _ _ _ H) as (A & (t2 & B & B') & C). exists (lower o1 o2 tmin), (upper o1 o2 tmax), t2, (unwrap (cp_ano1 r)), (unwrap (cp_ano2 r)).
  split; [apply lower_latest|]. split; [apply upper_earliest|]. split; [exact A|]. split; [exact B|]. split; [exact B'|].
  destruct C as (C1 & C2 & C3 & C4 & C5 & C6). repeat (split; [assumption|]). split; [apply unwrap_ok|]. split; [apply unwrap_ok|exact C6].
Qed.
Lemma compared_raises o1 o2 tmin tmax lo hi : latest (ms_tmin o1 :: ms_tmin o2 :: given tmin) lo -> earliest [ms_tmax o1; ms_tmax o2] hi ->
  (compute_errors_between_methods o1 o2 tmin tmax = Err GenericException <->
   close_to (ms_tref_in o1) (ms_tref_in o2) /\ ((exists x, tmin = Some x /\ (hi < x)%Q) \/ (exists x, tmax = Some x /\ (x < lo)%Q))).
Proof.
  intros [HL1 HL2] [HH1 HH2].
  assert (EL : (lo == lower o1 o2 tmin)%Q). { destruct (lower_latest o1 o2 tmin) as [A B]. apply Qle_antisym; [now apply B|now apply HL2]. }
  assert (EH : (hi == upper o1 o2 None)%Q). { destruct (upper_earliest o1 o2 None) as [A B]. apply Qle_antisym; [now apply HH2|now apply B]. }
  assert (OB : out_of_bounds o1 o2 tmin tmax <-> (exists x, tmin = Some x /\ (hi < x)%Q) \/ (exists x, tmax = Some x /\ (x < lo)%Q)).
  { unfold out_of_bounds. split; (intros [(x & E & G)|(x & E & G)]; [left|right]; exists x; (split; [exact E|lra])). }
  rewrite <- OB. destruct (compute_cases o1 o2 tmin tmax) as [[E N]|[[E (A & B)]|[E (A & B)]]].
  - rewrite E. split; [discriminate|tauto].
  - tauto.
  - split; [|tauto]. rewrite E. unfold errors_within. intros H. exfalso.
    destruct (masked _ _ (ms_tref_out o1) (ms_tref_out o1)) eqn:M1; cbn [bind] in H; [|apply masked_err in M1; congruence].
    destruct (masked _ _ (ms_tref_out o2) (ms_tref_out o2)) eqn:M2; cbn [bind] in H; [|apply masked_err in M2; congruence].
    destruct (assert_allclose _ _) eqn:M3; cbn [bind] in H; [|apply allclose_err in M3; congruence].
    destruct (masked _ _ _ (ms_ecc o1)) eqn:M4; cbn [bind] in H; [|apply masked_err in M4; congruence].
    destruct (masked _ _ _ (ms_ecc o2)) eqn:M5; cbn [bind] in H; [|apply masked_err in M5; congruence].
    destruct (zip_with _ _ _) eqn:M6; cbn [bind] in H; [|apply zip_err in M6; congruence].
    destruct (masked _ _ _ (ms_ano o1)) eqn:M7; cbn [bind] in H; [|apply masked_err in M7; congruence].
    destruct (masked _ _ _ (ms_ano o2)) eqn:M8; cbn [bind] in H; [|apply masked_err in M8; congruence].
    destruct (zip_with _ _ (unwrap _)) eqn:M9; cbn [bind] in H; [discriminate|apply zip_err in M9; congruence].
Qed.
Lemma close_refl l : close_to l l.
Proof.
  split; [reflexivity|]. intros k x y X Y. rewrite X in Y. apply Some_inj in Y. subst y. setoid_replace (x - x)%Q with 0%Q by ring. change (Qabs 0) with 0%Q.
  apply Qmult_le_0_compat; [discriminate|apply Qabs_nonneg].
Qed.
Lemma distance_same l r : pointwise distance l l r -> Forall (fun e => e == 0)%Q r.
Proof.
  intros (_ & L & P). apply Forall_forall. intros e I. apply In_nth_error in I. destruct I as [k K]. assert (Kl : k < length l) by (rewrite <- L; apply nth_error_Some; congruence).
  destruct (nth_error l k) as [a|] eqn:A; [|apply nth_error_None in A; lia]. rewrite (P k a a A A) in K. apply Some_inj in K. subst e. unfold distance. setoid_replace (a - a)%Q with 0%Q by ring. reflexivity.
Qed.
Lemma compared_self o : well_formed o -> exists r, compute_errors_between_methods o o None None = Ok r /\
  Forall (fun e => e == 0)%Q (cp_ecc_errors r) /\ Forall (fun e => e == 0)%Q (cp_ano_errors r).
Proof.
  intros [W1 W2]. destruct (compute_cases o o None None) as [[E N]|[[E (A & B)]|[E (A & B)]]].
  - exfalso. apply N, close_refl.
  - exfalso. destruct B as [(x & X & _)|(x & X & _)]; discriminate.
  - rewrite E. assert (G : exists r, errors_within o o (lower o o None) (upper o o None) = Ok r).
    { unfold errors_within. set (lo := lower o o None). set (hi := upper o o None).
      destruct (masked_total lo hi (ms_tref_out o) (ms_tref_out o) eq_refl) as [t T]. destruct (masked_total lo hi (ms_tref_out o) (ms_ecc o) W1) as [e1 E1].
      destruct (masked_total lo hi (ms_tref_out o) (ms_ano o) W2) as [m M]. rewrite T, E1, M. cbn [bind]. rewrite (proj2 (allclose_ok t t) (close_refl t)). cbn [bind].
      unfold zip_with. rewrite !Nat.eqb_refl. cbn [bind]. eauto. }
    destruct G as [r G]. exists r. split; [exact G|]. assert (S : cp_ecc1 r = cp_ecc2 r /\ cp_ano1 r = cp_ano2 r).
    { unfold errors_within in G. apply bind_ok in G; destruct G as (t1 & T1 & G). apply bind_ok in G; destruct G as (t2 & T2 & G).
      apply bind_ok in G; destruct G as ([] & A' & G). apply bind_ok in G; destruct G as (e1 & E1 & G). apply bind_ok in G; destruct G as (e2 & E2 & G).
      apply bind_ok in G; destruct G as (ee & EE & G). apply bind_ok in G; destruct G as (m1 & M1 & G). apply bind_ok in G; destruct G as (m2 & M2 & G).
      apply bind_ok in G; destruct G as (me & ME & G). apply Ok_inj in G. subst r. cbn. split; congruence. }
    destruct S as [S1 S2]. destruct (within_ok _ _ _ _ _ G) as (_ & _ & _ & _ & _ & _ & P1 & P2). rewrite <- S1 in P1. rewrite <- S2 in P2.
    split; eapply distance_same; eassumption.
Qed.
Lemma Qmaxb_sym a b : (Qmaxb a b == Qmaxb b a)%Q.
Proof. destruct (Qmaxb_spec a b) as (A & B & [C|C]), (Qmaxb_spec b a) as (A' & B' & [C'|C']); rewrite C, C' in *; lra. Qed.
Lemma Qminb_sym a b : (Qminb a b == Qminb b a)%Q.
Proof. destruct (Qminb_spec a b) as (A & B & [C|C]), (Qminb_spec b a) as (A' & B' & [C'|C']); rewrite C, C' in *; lra. Qed.
Lemma masked_same {A} lo hi lo' hi' t (v : list A) : (lo == lo')%Q -> (hi == hi')%Q -> masked lo hi t v = masked lo' hi' t v.
Proof.
  intros E1 E2. unfold masked. replace (where_idx (fun x => Qle_bool lo x && Qlt_bool x hi)%bool t) with (where_idx (fun x => Qle_bool lo' x && Qlt_bool x hi')%bool t); [reflexivity|].
  unfold where_idx. generalize 0. induction t as [|a t IH]; intros n; [reflexivity|]. cbn [where_from]. rewrite !IH.
  assert (X : (Qle_bool lo' a && Qlt_bool a hi' = Qle_bool lo a && Qlt_bool a hi)%bool); [|now rewrite X].
  apply eq_true_iff_eq. rewrite !andb_true_iff, !Qle_bool_iff, !Qlt_bool_iff. now rewrite E1, E2.
Qed.
Lemma distance_sym l m r r' : pointwise distance l m r -> pointwise distance m l r' -> Forall2 Qeq r r'.
Proof.
  intros (L & L1 & P) (_ & L2 & P'). assert (LL : length r = length r') by lia. assert (G : forall k a b, nth_error r k = Some a -> nth_error r' k = Some b -> (a == b)%Q).
  { intros k a b A B. assert (K : k < length l) by (rewrite <- L1; apply nth_error_Some; congruence).
    destruct (nth_error l k) as [x|] eqn:X; [|apply nth_error_None in X; lia]. destruct (nth_error m k) as [y|] eqn:Y; [|apply nth_error_None in Y; lia].
    rewrite (P k x y X Y) in A. rewrite (P' k y x Y X) in B. apply Some_inj in A, B. subst. unfold distance. setoid_replace (y - x)%Q with (- (x - y))%Q by ring. now rewrite Qabs_opp. }
  clear L L1 L2 P P'. revert r' LL G. induction r as [|a r IH]; intros [|b r'] LL G; try discriminate; constructor.
  - apply (G 0); reflexivity.
  - apply IH; [cbn in LL; congruence|]. intros k x y X Y. now apply (G (S k)).
Qed.
Lemma compared_swapped o1 o2 tmin tmax r r' : compute_errors_between_methods o1 o2 tmin tmax = Ok r -> compute_errors_between_methods o2 o1 tmin tmax = Ok r' ->
  close_to (cp_t r') (cp_t r) /\ Forall2 Qeq (cp_ecc_errors r) (cp_ecc_errors r') /\ Forall2 Qeq (cp_ano_errors r) (cp_ano_errors r').
Proof.
  intros H H'. destruct (compute_cases o1 o2 tmin tmax) as [[E _]|[[E _]|[E _]]]; rewrite E in H; try discriminate.
  destruct (compute_cases o2 o1 tmin tmax) as [[E' _]|[[E' _]|[E' _]]]; rewrite E' in H'; try discriminate.
  assert (EL : (lower o1 o2 tmin == lower o2 o1 tmin)%Q).
  { destruct (lower_latest o1 o2 tmin) as [A B], (lower_latest o2 o1 tmin) as [A' B']. apply Qle_antisym; [apply B'|apply B]; cbn in *; tauto. }
  assert (EH : (upper o1 o2 tmax == upper o2 o1 tmax)%Q).
  { destruct (upper_earliest o1 o2 tmax) as [A B], (upper_earliest o2 o1 tmax) as [A' B']. apply Qle_antisym; [apply B|apply B']; cbn in *; tauto. }
  destruct (within_ok _ _ _ _ _ H) as (_ & _ & _ & _ & _ & _ & P1 & P2). destruct (within_ok _ _ _ _ _ H') as (_ & _ & _ & _ & _ & _ & P1' & P2').
  unfold errors_within in H, H'. apply bind_ok in H; destruct H as (t1 & T1 & H). apply bind_ok in H; destruct H as (t2 & T2 & H).
  apply bind_ok in H; destruct H as ([] & A & H). apply bind_ok in H; destruct H as (e1 & E1 & H). apply bind_ok in H; destruct H as (e2 & E2 & H).
  apply bind_ok in H; destruct H as (ee & EE & H). apply bind_ok in H; destruct H as (m1 & M1 & H). apply bind_ok in H; destruct H as (m2 & M2 & H).
  apply bind_ok in H; destruct H as (me & ME & H). apply Ok_inj in H. subst r.
  apply bind_ok in H'; destruct H' as (t1' & T1' & H'). apply bind_ok in H'; destruct H' as (t2' & T2' & H').
  apply bind_ok in H'; destruct H' as ([] & A' & H'). apply bind_ok in H'; destruct H' as (e1' & E1' & H'). apply bind_ok in H'; destruct H' as (e2' & E2' & H').
  apply bind_ok in H'; destruct H' as (ee' & EE' & H'). apply bind_ok in H'; destruct H' as (m1' & M1' & H'). apply bind_ok in H'; destruct H' as (m2' & M2' & H').
  apply bind_ok in H'; destruct H' as (me' & ME' & H'). apply Ok_inj in H'. subst r'.
  rewrite (masked_same _ _ _ _ _ _ EL EH) in T1.
  rewrite (masked_same _ _ _ _ _ _ EL EH) in T2.
  rewrite (masked_same _ _ _ _ _ _ EL EH) in E1.
  rewrite (masked_same _ _ _ _ _ _ EL EH) in E2.
  rewrite (masked_same _ _ _ _ _ _ EL EH) in M1.
  rewrite (masked_same _ _ _ _ _ _ EL EH) in M2.
  cbn [cp_t cp_ecc_errors cp_ano_errors cp_ecc1 cp_ecc2 cp_ano1 cp_ano2] in *.
  assert (t2' = t1) by congruence. assert (t1' = t2) by congruence. assert (e1' = e2) by congruence. assert (e2' = e1) by congruence.
  assert (m1' = m2) by congruence. assert (m2' = m1) by congruence. subst.
  split; [now apply allclose_ok|]. split; eapply distance_sym; eassumption.
Qed.
Lemma compared_turns o1 o2 tmin tmax r : compute_errors_between_methods o1 o2 tmin tmax = Ok r ->
  (forall k a b, nth_error (cp_ano1 r) k = Some a -> nth_error (cp_ano2 r) k = Some b -> turns a b) -> no_half_turns (cp_ano1 r) ->
  forall a b, nth_error (cp_ano1 r) 0 = Some a -> nth_error (cp_ano2 r) 0 = Some b -> Forall (fun e => e == distance a b)%Q (cp_ano_errors r).
Proof.
  intros H T N a b A B. destruct (compute_cases o1 o2 tmin tmax) as [[E _]|[[E _]|[E _]]]; rewrite E in H; try discriminate.
  destruct (within_ok _ _ _ _ _ H) as (_ & _ & _ & _ & _ & _ & _ & (L & L1 & P)). rewrite !unwrap_length in L. rewrite unwrap_length in L1.
  apply Forall_forall. intros e I. apply In_nth_error in I. destruct I as [k K]. assert (Kl : k < length (cp_ano1 r)) by (rewrite <- L1; apply nth_error_Some; congruence).
  destruct (nth_error (unwrap (cp_ano1 r)) k) as [u|] eqn:U; [|apply nth_error_None in U; rewrite unwrap_length in U; lia].
  destruct (nth_error (unwrap (cp_ano2 r)) k) as [v|] eqn:V; [|apply nth_error_None in V; rewrite unwrap_length in V; lia].
  rewrite (P k u v U V) in K. apply Some_inj in K. subst e. unfold distance. now rewrite (unwrap_offset _ _ L T N k a b u v A B U V).
Qed.
Lemma compared_disjoint o1 o2 : well_formed o1 -> well_formed o2 -> close_to (ms_tref_in o1) (ms_tref_in o2) ->
  (ms_tmax o1 <= ms_tmin o2)%Q -> exists r, compute_errors_between_methods o1 o2 None None = Ok r /\ cp_t r = [] /\ cp_ecc_errors r = [] /\ cp_ano_errors r = [].
Proof.
  intros [W1 W2] [W3 W4] CL D. destruct (compute_cases o1 o2 None None) as [[E N]|[[E (A & B)]|[E (A & B)]]].
  - exfalso. now apply N.
  - exfalso. destruct B as [(x & X & _)|(x & X & _)]; discriminate.
  - rewrite E. clear E B. assert (LH : (upper o1 o2 None <= lower o1 o2 None)%Q).
    { destruct (lower_latest o1 o2 None) as [_ L], (upper_earliest o1 o2 None) as [_ U]. eapply Qle_trans; [apply U; left; reflexivity|]. eapply Qle_trans; [exact D|]. apply L. right. left. reflexivity. }
    assert (EM : forall {X} t (v : list X), length v = length t -> masked (lower o1 o2 None) (upper o1 o2 None) t v = Ok []).
    { intros X t v L. unfold masked. rewrite L, Nat.eqb_refl. replace (where_idx _ t) with (@nil nat); [reflexivity|]. symmetry. destruct (where_idx _ t) as [|i l] eqn:G; [reflexivity|]. exfalso.
      assert (In i (where_idx (fun x => (Qle_bool (lower o1 o2 None) x && Qlt_bool x (upper o1 o2 None))%bool) t)) as I by (rewrite G; left; reflexivity).
      apply where_idx_in in I. destruct I as (a & _ & P). apply andb_true_iff in P. rewrite Qle_bool_iff, Qlt_bool_iff in P. destruct P. apply (Qlt_not_le _ _ H0). eapply Qle_trans; eauto. }
    unfold errors_within. rewrite !EM by (auto; congruence). cbn. eexists. repeat split.
Qed.
(** comparing a measurement with itself, whatever the bounds *)
Lemma compared_self_any o tmin tmax r : compute_errors_between_methods o o tmin tmax = Ok r ->
  Forall (fun e => e == 0)%Q (cp_ecc_errors r) /\ Forall (fun e => e == 0)%Q (cp_ano_errors r).
Proof.
  intros H. destruct (compute_cases o o tmin tmax) as [[E _]|[[E _]|[E _]]]; rewrite E in H; try discriminate.
  assert (S : cp_ecc1 r = cp_ecc2 r /\ cp_ano1 r = cp_ano2 r).
  { unfold errors_within in H. apply bind_ok in H; destruct H as (t1 & T1 & H). apply bind_ok in H; destruct H as (t2 & T2 & H).
    apply bind_ok in H; destruct H as ([] & A' & H). apply bind_ok in H; destruct H as (e1 & E1 & H). apply bind_ok in H; destruct H as (e2 & E2 & H).
    apply bind_ok in H; destruct H as (ee & EE & H). apply bind_ok in H; destruct H as (m1 & M1 & H). apply bind_ok in H; destruct H as (m2 & M2 & H).
    apply bind_ok in H; destruct H as (me & ME & H). apply Ok_inj in H. subst r. cbn. split; congruence. }
  destruct S as [S1 S2]. destruct (within_ok _ _ _ _ _ H) as (_ & _ & _ & _ & _ & _ & P1 & P2). rewrite <- S1 in P1. rewrite <- S2 in P2.
  split; eapply distance_same; eassumption.
Qed.
(** bounds that leave the common times alone *)
Lemma compared_self_total o tmin tmax : well_formed o -> (forall x, tmin = Some x -> (x <= ms_tmax o)%Q) ->
  (forall x, tmax = Some x -> (ms_tmin o <= x)%Q /\ forall y, tmin = Some y -> (y <= x)%Q) ->
  exists r, compute_errors_between_methods o o tmin tmax = Ok r /\
    Forall (fun e => e == 0)%Q (cp_ecc_errors r) /\ Forall (fun e => e == 0)%Q (cp_ano_errors r).
Proof.
  intros [W1 W2] H1 H2. assert (G : exists r, compute_errors_between_methods o o tmin tmax = Ok r).
  { destruct (compute_cases o o tmin tmax) as [[E N]|[[E (A & B)]|[E (A & B)]]].
    - exfalso. apply N, close_refl.
    - exfalso. destruct B as [(x & X & B)|(x & X & B)].
      + destruct (upper_earliest o o None) as [U _]. cbn [given In] in U. assert (L := H1 x X). destruct U as [U|[U|[]]]; rewrite <- U in B; lra.
      + destruct (lower_latest o o tmin) as [U _]. destruct (H2 x X) as [L1 L2]. destruct U as [U|[U|U]]; try (rewrite <- U in B; lra).
        destruct tmin as [y|]; [|destruct U]. destruct U as [U|[]]. assert (L3 := L2 y eq_refl). rewrite <- U in B. lra.
    - rewrite E. unfold errors_within. set (lo := lower o o tmin). set (hi := upper o o tmax).
      destruct (masked_total lo hi (ms_tref_out o) (ms_tref_out o) eq_refl) as [t T]. destruct (masked_total lo hi (ms_tref_out o) (ms_ecc o) W1) as [e1 E1].
      destruct (masked_total lo hi (ms_tref_out o) (ms_ano o) W2) as [m M]. rewrite T, E1, M. cbn [bind]. rewrite (proj2 (allclose_ok t t) (close_refl t)). cbn [bind].
      unfold zip_with. rewrite !Nat.eqb_refl. cbn [bind]. eauto. }
  destruct G as [r G]. exists r. split; [exact G|]. eapply compared_self_any; eauto.
Qed.
