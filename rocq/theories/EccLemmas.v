(** Proofs about the eccentricity formulas. *)
From Coq Require Import Reals Lra Psatz.
From Verif Require Import EccModel EccSpec.
Open Scope R_scope.

Lemma cos_atan_pos e : 0 < cos (atan e).
Proof. destruct (atan_bound e). apply cos_gt_0; lra. Qed.
Lemma sin_atan_eq e : sin (atan e) = e * cos (atan e).
Proof.
  assert (C := cos_atan_pos e). assert (T := tan_atan e). unfold tan in T.
  rewrite <- T at 2. field. lra.
Qed.
Lemma atan_quarter e : -1 <= e <= 1 -> - (PI / 4) <= atan e <= PI / 4.
Proof.
  intros [L U]. split.
  - rewrite <- atan_1, <- atan_opp. destruct L as [L| <-]; [left; now apply atan_increasing|right; reflexivity].
  - rewrite <- atan_1. destruct U as [U| ->]; [left; now apply atan_increasing|right; reflexivity].
Qed.
Lemma two_angle e : sin (2 * atan e) = 2 * e * (cos (atan e))² /\ cos (2 * atan e) = (1 - e * e) * (cos (atan e))².
Proof.
  rewrite sin_2a, cos_2a, sin_atan_eq. unfold Rsqr. split; ring.
Qed.
(** The angle of et_from_ew22_0pn in closed form. *)
Lemma psi_eq e : -1 <= e <= 1 -> e <> -1 -> arctan2 (1 - e * e) (2 * e) = PI / 2 - 2 * atan e.
Proof.
  intros He Hn. assert (B := atan_quarter e He). assert (P := PI_RGT_0). assert (C := cos_atan_pos e).
  destruct (two_angle e) as [S2 C2].
  assert (TE : e <> 0 -> tan (PI / 2 - 2 * atan e) = (1 - e * e) / (2 * e)).
  { intros N. unfold tan. rewrite sin_shift, cos_shift, S2, C2. unfold Rsqr. field. split; [lra|exact N] || (split; [exact N|lra]). }
  unfold arctan2. destruct (Rlt_dec 0 (2 * e)) as [X|X].
  - assert (0 < e) by lra. assert (0 < atan e) by (rewrite <- atan_0; now apply atan_increasing).
    rewrite <- (TE ltac:(lra)). apply atan_tan. lra.
  - destruct (Rlt_dec (2 * e) 0) as [Y|Y].
    + assert (e < 0) by lra. assert (atan e < 0) by (rewrite <- atan_0; now apply atan_increasing).
      assert (BL : - (PI / 4) < atan e).
      { rewrite <- atan_1, <- atan_opp. apply atan_increasing. lra. }
      destruct (Rle_dec 0 (1 - e * e)) as [Z|Z]; [|exfalso; apply Z; nra].
      rewrite <- (TE ltac:(lra)).
      replace (tan (PI / 2 - 2 * atan e)) with (tan (PI / 2 - 2 * atan e - PI)).
      * rewrite atan_tan; lra.
      * replace (PI / 2 - 2 * atan e) with ((PI / 2 - 2 * atan e - PI) + PI) at 2 by ring.
        unfold tan. rewrite neg_sin, neg_cos. field.
        replace (PI / 2 - 2 * atan e - PI) with (- (PI / 2 + 2 * atan e)) by lra.
        rewrite cos_neg. apply Rgt_not_eq. apply cos_gt_0; lra.
    + assert (e = 0) by lra. subst e. rewrite atan_0.
      destruct (Rlt_dec 0 (1 - 0 * 0)) as [Z|Z]; lra.
Qed.
Lemma et_closed e : -1 <= e <= 1 -> e <> -1 ->
  et_from_ew22_0pn e = 2 * cos (PI / 2 - 2 * atan e / 3).
Proof.
  intros He Hn. unfold et_from_ew22_0pn. rewrite psi_eq by assumption.
  set (p := (PI / 2 - 2 * atan e) / 3).
  replace (PI / 2 - 2 * atan e / 3) with (p + PI / 3) by (unfold p; field).
  rewrite cos_plus, cos_PI3, sin_PI3. lra.
Qed.
Lemma et_sin e : -1 <= e <= 1 -> e <> -1 -> et_from_ew22_0pn e = 2 * sin (2 * atan e / 3).
Proof. intros. rewrite et_closed by assumption. now rewrite cos_shift. Qed.
Lemma atan_le a b : a <= b -> atan a <= atan b.
Proof. intros [H| ->]; [left; now apply atan_increasing|right; reflexivity]. Qed.
Lemma et_increasing a b : -1 < a -> a < b -> b <= 1 -> et_from_ew22_0pn a < et_from_ew22_0pn b.
Proof.
  intros Ha Hab Hb. rewrite !et_sin by lra. assert (P := PI_RGT_0).
  assert (Ba := atan_quarter a ltac:(lra)). assert (Bb := atan_quarter b ltac:(lra)).
  assert (atan a < atan b) by now apply atan_increasing.
  assert (sin (2 * atan a / 3) < sin (2 * atan b / 3)) by (apply sin_increasing_1; lra). lra.
Qed.
Lemma et_0 : et_from_ew22_0pn 0 = 0.
Proof. rewrite et_sin by lra. rewrite atan_0. replace (2 * 0 / 3) with 0 by field. rewrite sin_0. ring. Qed.
Lemma et_1 : et_from_ew22_0pn 1 = 1.
Proof.
  rewrite et_sin by lra. rewrite atan_1. replace (2 * (PI / 4) / 3) with (PI / 6) by field. rewrite sin_PI6. lra.
Qed.
Lemma et_odd e : -1 < e < 1 -> et_from_ew22_0pn (- e) = - et_from_ew22_0pn e.
Proof.
  intros He. rewrite !et_sin by lra. rewrite atan_opp.
  replace (2 * - atan e / 3) with (- (2 * atan e / 3)) by field. rewrite sin_neg. ring.
Qed.
Lemma et_sign e : -1 < e < 1 ->
  (0 < et_from_ew22_0pn e <-> 0 < e) /\ (et_from_ew22_0pn e = 0 <-> e = 0) /\ (et_from_ew22_0pn e < 0 <-> e < 0).
Proof.
  intros He.
  assert (A : 0 < e -> 0 < et_from_ew22_0pn e) by (intros; rewrite <- et_0 at 1; apply et_increasing; lra).
  assert (B : e < 0 -> et_from_ew22_0pn e < 0) by (intros; rewrite <- et_0; apply et_increasing; lra).
  assert (C : e = 0 -> et_from_ew22_0pn e = 0) by (intros ->; apply et_0).
  destruct (Rtotal_order e 0) as [H|[H|H]].
  - specialize (B H). repeat split; intros; try lra.
  - specialize (C H). repeat split; intros; try lra.
  - assert (0 < e) by lra. specialize (A H0). repeat split; intros; try lra.
Qed.
Lemma et_bounds e : -1 < e < 1 -> -1 < et_from_ew22_0pn e < 1.
Proof.
  intros He. split.
  - assert (X : et_from_ew22_0pn (- e) < 1) by (rewrite <- et_1 at 1; apply et_increasing; lra).
    rewrite et_odd in X by lra. lra.
  - rewrite <- et_1 at 1. apply et_increasing; lra.
Qed.
(** The Newtonian relation, cleared of denominators. *)
Lemma et_cubic e : -1 < e <= 1 ->
  et_from_ew22_0pn e * (3 - et_from_ew22_0pn e * et_from_ew22_0pn e) * (1 + e * e) = 4 * e.
Proof.
  intros He. rewrite et_sin by lra. set (u := 2 * atan e / 3).
  assert (T : sin (3 * u) = 3 * sin u - 4 * sin u * sin u * sin u).
  { replace (3 * u) with (2 * u + u) by ring. rewrite sin_plus, sin_2a, cos_2a.
    assert (S : cos u * cos u = 1 - sin u * sin u) by (assert (S := sin2_cos2 u); unfold Rsqr in S; lra).
    replace (2 * sin u * cos u * cos u) with (2 * sin u * (cos u * cos u)) by ring. rewrite S. ring. }
  replace (3 * u) with (2 * atan e) in T by (unfold u; field).
  destruct (two_angle e) as [S2 _]. rewrite S2 in T. unfold Rsqr in T.
  assert (C1 : (1 + e * e) * (cos (atan e) * cos (atan e)) = 1).
  { assert (S := sin2_cos2 (atan e)). unfold Rsqr in S. rewrite sin_atan_eq in S. etransitivity; [|exact S]. ring. }
  replace (2 * sin u * (3 - 2 * sin u * (2 * sin u)) * (1 + e * e))
    with (2 * (3 * sin u - 4 * sin u * sin u * sin u) * (1 + e * e)) by ring.
  rewrite <- T. replace (2 * (2 * e * (cos (atan e) * cos (atan e))) * (1 + e * e))
    with (4 * e * ((1 + e * e) * (cos (atan e) * cos (atan e)))) by ring.
  rewrite C1. ring.
Qed.

(** ** from the two frequencies *)
Lemma ew_range_pos wp wa : 0 < wp -> 0 < wa -> -1 < e_omega_gw wp wa < 1.
Proof.
  intros Hp Ha. unfold e_omega_gw. assert (A := sqrt_lt_R0 wa Ha). assert (B := sqrt_lt_R0 wp Hp).
  split.
  - apply Rmult_lt_reg_r with (sqrt wp + sqrt wa); [lra|]. unfold Rdiv. rewrite Rmult_assoc, Rinv_l by lra. lra.
  - apply Rmult_lt_reg_r with (sqrt wp + sqrt wa); [lra|]. unfold Rdiv. rewrite Rmult_assoc, Rinv_l by lra. lra.
Qed.
Lemma ew_sign wp wa : 0 < wp -> 0 < wa ->
  (0 < e_omega_gw wp wa <-> wa < wp) /\ (e_omega_gw wp wa = 0 <-> wp = wa).
Proof.
  intros Hp Ha. unfold e_omega_gw. assert (A := sqrt_lt_R0 wa Ha). assert (B := sqrt_lt_R0 wp Hp).
  assert (I : 0 < / (sqrt wp + sqrt wa)) by (apply Rinv_0_lt_compat; lra).
  split; split; intros H.
  - apply sqrt_lt_0_alt. unfold Rdiv in H. nra.
  - assert (sqrt wa < sqrt wp) by (apply sqrt_lt_1_alt; lra). unfold Rdiv. nra.
  - apply sqrt_inj; try lra. unfold Rdiv in H. apply Rmult_integral in H. destruct H; lra.
  - subst wp. unfold Rdiv. replace (sqrt wa - sqrt wa) with 0 by ring. ring.
Qed.
(** strictly increasing in the ratio of the frequencies *)
Lemma ew_ratio wp wa wp' wa' : 0 < wp -> 0 < wa -> 0 < wp' -> 0 < wa' ->
  (e_omega_gw wp wa < e_omega_gw wp' wa' <-> wp * wa' < wp' * wa).
Proof.
  intros H1 H2 H3 H4. unfold e_omega_gw.
  assert (A := sqrt_lt_R0 _ H1). assert (B := sqrt_lt_R0 _ H2). assert (C := sqrt_lt_R0 _ H3). assert (D := sqrt_lt_R0 _ H4).
  assert (E : sqrt wp * sqrt wa' < sqrt wp' * sqrt wa <-> wp * wa' < wp' * wa).
  { rewrite <- !sqrt_mult by lra. split; [apply sqrt_lt_0_alt|]. intros. apply sqrt_lt_1_alt. nra. }
  rewrite <- E. set (p := sqrt wp) in *. set (a := sqrt wa) in *. set (p' := sqrt wp') in *. set (a' := sqrt wa') in *.
  assert (X : (p' - a') / (p' + a') - (p - a) / (p + a) = 2 * (p' * a - p * a') * / ((p' + a') * (p + a))) by (field; lra).
  assert (I : 0 < / ((p' + a') * (p + a))) by (apply Rinv_0_lt_compat; nra).
  split; intros H; nra.
Qed.
Lemma ecc_scale k wp wa : 0 < k -> 0 < wp -> 0 < wa -> ecc_from_extrema (k * wp) (k * wa) = ecc_from_extrema wp wa.
Proof.
  intros Hk Hp Ha. unfold ecc_from_extrema, e_omega_gw. f_equal.
  assert (A := sqrt_lt_R0 wa Ha). assert (B := sqrt_lt_R0 wp Hp). assert (C := sqrt_lt_R0 k Hk).
  rewrite !sqrt_mult by lra. field. split; nra.
Qed.
Lemma ecc_range wp wa : 0 < wp -> 0 < wa ->
  -1 < ecc_from_extrema wp wa < 1 /\
  (0 < ecc_from_extrema wp wa <-> wa < wp) /\ (ecc_from_extrema wp wa = 0 <-> wp = wa) /\
  (ecc_from_extrema wp wa < 0 <-> wp < wa).
Proof.
  intros Hp Ha. unfold ecc_from_extrema. assert (R := ew_range_pos wp wa Hp Ha).
  destruct (et_sign _ R) as [S1 [S2 S3]]. destruct (ew_sign wp wa Hp Ha) as [T1 T2].
  split; [now apply et_bounds|]. rewrite S1, S2, S3, T1, T2. repeat split; auto; intros.
  - destruct (Rtotal_order wp wa) as [X|[X|X]]; auto; exfalso.
    + apply T2 in X. lra.
    + apply T1 in X. lra.
  - destruct (Rtotal_order (e_omega_gw wp wa) 0) as [X|[X|X]]; auto; exfalso.
    + apply T2 in X. lra.
    + apply T1 in X. lra.
Qed.
Lemma ecc_monotone wp wa wp' wa' : 0 < wp -> 0 < wa -> 0 < wp' -> 0 < wa' ->
  (ecc_from_extrema wp wa < ecc_from_extrema wp' wa' <-> wp / wa < wp' / wa').
Proof.
  intros H1 H2 H3 H4.
  assert (X : wp / wa < wp' / wa' <-> wp * wa' < wp' * wa).
  { assert (D : wp' / wa' - wp / wa = (wp' * wa - wp * wa') * / (wa * wa')) by (field; lra).
    assert (I : 0 < / (wa * wa')) by (apply Rinv_0_lt_compat; nra). split; intros; nra. }
  rewrite X, <- (ew_ratio wp wa wp' wa' H1 H2 H3 H4). unfold ecc_from_extrema.
  assert (R := ew_range_pos wp wa H1 H2). assert (R' := ew_range_pos wp' wa' H3 H4).
  split; intros H; [|apply et_increasing; lra].
  destruct (Rlt_dec (e_omega_gw wp wa) (e_omega_gw wp' wa')) as [L|L]; auto. exfalso.
  destruct (Req_dec (e_omega_gw wp wa) (e_omega_gw wp' wa')) as [E|E]; [rewrite E in H; lra|].
  assert (et_from_ew22_0pn (e_omega_gw wp' wa') < et_from_ew22_0pn (e_omega_gw wp wa)) by (apply et_increasing; lra).
  lra.
Qed.
(** Newtonian orbit: the frequency of the quadrupole mode is K (1+e)^2/(2+e) at pericenter and
    K (1-e)^2/(2-e) at apocenter. *)
Lemma ecc_newtonian K e : 0 < K -> 0 <= e < 1 ->
  ecc_from_extrema (K * ((1 + e) * (1 + e) / (2 + e))) (K * ((1 - e) * (1 - e) / (2 - e))) = e.
Proof.
  intros HK He. set (wp := K * ((1 + e) * (1 + e) / (2 + e))). set (wa := K * ((1 - e) * (1 - e) / (2 - e))).
  assert (Hp : 0 < wp).
  { unfold wp. apply Rmult_lt_0_compat; [lra|]. apply Rdiv_lt_0_compat; nra. }
  assert (Ha : 0 < wa).
  { unfold wa. apply Rmult_lt_0_compat; [lra|]. apply Rdiv_lt_0_compat; nra. }
  assert (R := ew_range_pos wp wa Hp Ha).
  assert (EQ := et_cubic (e_omega_gw wp wa) ltac:(lra)).
  fold (ecc_from_extrema wp wa) in EQ. set (x := ecc_from_extrema wp wa) in *.
  assert (Bx : -1 < x < 1) by (apply et_bounds; exact R).
  (* 4 ew / (1 + ew^2) = 2 (wp - wa)/(wp + wa) *)
  assert (W : (wp + wa) * (4 * e_omega_gw wp wa) = 2 * (wp - wa) * (1 + e_omega_gw wp wa * e_omega_gw wp wa)).
  { unfold e_omega_gw. assert (A := sqrt_lt_R0 wa Ha). assert (B := sqrt_lt_R0 wp Hp).
    assert (A2 := sqrt_sqrt wa ltac:(lra)). assert (B2 := sqrt_sqrt wp ltac:(lra)).
    set (p := sqrt wp) in *. set (a := sqrt wa) in *. rewrite <- A2, <- B2. field. lra. }
  assert (U : 1 + e_omega_gw wp wa * e_omega_gw wp wa > 0) by nra.
  assert (V : (wp + wa) * (x * (3 - x * x)) = 2 * (wp - wa)).
  { apply Rmult_eq_reg_r with (1 + e_omega_gw wp wa * e_omega_gw wp wa); [|lra].
    rewrite <- W. rewrite <- EQ. ring. }
  (* wp - wa and wp + wa in terms of e *)
  assert (S : (2 + e) * (2 - e) * wp = K * ((1 + e) * (1 + e)) * (2 - e)) by (unfold wp; field; lra).
  assert (T : (2 + e) * (2 - e) * wa = K * ((1 - e) * (1 - e)) * (2 + e)) by (unfold wa; field; lra).
  assert (M1 : (2 + e) * (2 - e) * (wp + wa) = 4 * K) by lra.
  assert (M2 : (2 + e) * (2 - e) * (wp - wa) = 2 * K * (e * (3 - e * e))) by lra.
  assert (Q : x * (3 - x * x) = e * (3 - e * e)).
  { apply Rmult_eq_reg_l with (4 * K); [|lra]. rewrite <- M1.
    replace ((2 + e) * (2 - e) * (wp + wa) * (x * (3 - x * x))) with ((2 + e) * (2 - e) * ((wp + wa) * (x * (3 - x * x)))) by ring.
    rewrite V, M1. replace ((2 + e) * (2 - e) * (2 * (wp - wa))) with (2 * ((2 + e) * (2 - e) * (wp - wa))) by ring.
    rewrite M2. ring. }
  (* the cubic is injective on (-1, 1) *)
  assert (Z : (x - e) * (3 - (x * x + x * e + e * e)) = 0) by nra.
  apply Rmult_integral in Z. destruct Z as [Z|Z]; [lra|]. exfalso. nra.
Qed.

(** ** the Kepler orbit *)
Lemma kep_re_deriv e phi : derivable_pt_lim (mode22_re e) phi
  (- e * sin phi + 2 * (1 + e * cos phi) * (- e * sin phi) - 2 * (e * sin phi) * (e * cos phi)).
Proof.
  assert (C : derivable_pt_lim (fun x => 1 + e * cos x) phi (- e * sin phi)).
  { replace (- e * sin phi) with (0 + e * (- sin phi)) by ring.
    apply (derivable_pt_lim_plus (fct_cte 1) (fun x => e * cos x)); [apply derivable_pt_lim_const|].
    apply (derivable_pt_lim_scal cos). apply derivable_pt_lim_cos. }
  assert (S : derivable_pt_lim (fun x => e * sin x) phi (e * cos phi)).
  { apply (derivable_pt_lim_scal sin). apply derivable_pt_lim_sin. }
  replace (- e * sin phi + 2 * (1 + e * cos phi) * (- e * sin phi) - 2 * (e * sin phi) * (e * cos phi))
    with ((- e * sin phi + ((- e * sin phi) * (1 + e * cos phi) + (1 + e * cos phi) * (- e * sin phi)))
          - ((e * cos phi) * (e * sin phi) + (e * sin phi) * (e * cos phi))) by ring.
  apply (derivable_pt_lim_minus (fun x => (1 + e * cos x) + (1 + e * cos x) * (1 + e * cos x)) (fun x => (e * sin x) * (e * sin x))).
  - apply (derivable_pt_lim_plus (fun x => 1 + e * cos x) (fun x => (1 + e * cos x) * (1 + e * cos x))); [exact C|].
    apply (derivable_pt_lim_mult (fun x => 1 + e * cos x) (fun x => 1 + e * cos x)); exact C.
  - apply (derivable_pt_lim_mult (fun x => e * sin x) (fun x => e * sin x)); exact S.
Qed.
Lemma kep_im_deriv e phi : derivable_pt_lim (mode22_im e) phi
  (2 * (e * cos phi) * (1 + e * cos phi) + 2 * (e * sin phi) * (- e * sin phi)).
Proof.
  assert (C : derivable_pt_lim (fun x => 1 + e * cos x) phi (- e * sin phi)).
  { replace (- e * sin phi) with (0 + e * (- sin phi)) by ring.
    apply (derivable_pt_lim_plus (fct_cte 1) (fun x => e * cos x)); [apply derivable_pt_lim_const|].
    apply (derivable_pt_lim_scal cos). apply derivable_pt_lim_cos. }
  assert (S : derivable_pt_lim (fun x => 2 * (e * sin x)) phi (2 * (e * cos phi))).
  { apply (derivable_pt_lim_scal (fun x => e * sin x)). apply (derivable_pt_lim_scal sin). apply derivable_pt_lim_sin. }
  apply (derivable_pt_lim_mult (fun x => 2 * (e * sin x)) (fun x => 1 + e * cos x)); assumption.
Qed.
(** Where the imaginary part vanishes the phase derivative is 2 - im'/re. *)
Lemma kep_phase_deriv e phi : sin phi = 0 -> mode22_re e phi <> 0 ->
  derivable_pt_lim (gw_phase e) phi (2 - 2 * (e * cos phi) * (1 + e * cos phi) / mode22_re e phi).
Proof.
  intros Hs Hr.
  assert (I0 : mode22_im e phi = 0) by (unfold mode22_im; rewrite Hs; ring).
  assert (Q := derivable_pt_lim_div (mode22_im e) (mode22_re e) phi _ _ (kep_im_deriv e phi) (kep_re_deriv e phi) Hr).
  assert (A := derivable_pt_lim_comp _ atan phi _ _ Q (derivable_pt_lim_atan _)).
  assert (L : derivable_pt_lim (fun x => 2 * x) phi (2 * 1)).
  { apply (derivable_pt_lim_scal id). apply derivable_pt_lim_id. }
  assert (M := derivable_pt_lim_minus _ _ phi _ _ L A).
  unfold gw_phase. match type of M with derivable_pt_lim _ _ ?d => replace (2 - 2 * (e * cos phi) * (1 + e * cos phi) / mode22_re e phi) with d end.
  - exact M.
  - unfold div_fct. rewrite I0, Hs. unfold Rsqr, Rdiv. rewrite !Rmult_0_l. field. exact Hr.
Qed.
Lemma kep_peri p e w : 0 < p -> 0 <= e < 1 -> gw_frequency p e 0 w ->
  w = 4 / (p * sqrt p) * ((1 + e) * (1 + e) / (2 + e)).
Proof.
  intros Hp He (d & D & ->). assert (SP := sqrt_lt_R0 p Hp).
  assert (R : mode22_re e 0 = (1 + e) * (2 + e)) by (unfold mode22_re; rewrite sin_0, cos_0; ring).
  assert (D0 := kep_phase_deriv e 0 sin_0 ltac:(rewrite R; nra)).
  rewrite (uniqueness_limite _ _ _ _ D D0), R. unfold kepler_rate. rewrite cos_0. field. nra.
Qed.
Lemma kep_apo p e w : 0 < p -> 0 <= e < 1 -> gw_frequency p e PI w ->
  w = 4 / (p * sqrt p) * ((1 - e) * (1 - e) / (2 - e)).
Proof.
  intros Hp He (d & D & ->). assert (SP := sqrt_lt_R0 p Hp).
  assert (R : mode22_re e PI = (1 - e) * (2 - e)) by (unfold mode22_re; rewrite sin_PI, cos_PI; ring).
  assert (D0 := kep_phase_deriv e PI sin_PI ltac:(rewrite R; nra)).
  rewrite (uniqueness_limite _ _ _ _ D D0), R. unfold kepler_rate. rewrite cos_PI. field. nra.
Qed.
Lemma kep_exists p e : 0 <= e < 1 -> (exists w, gw_frequency p e 0 w) /\ (exists w, gw_frequency p e PI w).
Proof.
  intros He. split; eexists; eexists; (split; [|reflexivity]); apply kep_phase_deriv;
  try apply sin_0; try apply sin_PI; unfold mode22_re; rewrite ?sin_0, ?cos_0, ?sin_PI, ?cos_PI; nra.
Qed.
Lemma ecc_kepler p e wp wa : 0 < p -> 0 <= e < 1 -> gw_frequency p e 0 wp -> gw_frequency p e PI wa ->
  ecc_from_extrema wp wa = e.
Proof.
  intros Hp He Hw Ha. rewrite (kep_peri p e wp), (kep_apo p e wa) by assumption.
  assert (SP := sqrt_lt_R0 p Hp). apply ecc_newtonian; [|exact He]. apply Rdiv_lt_0_compat; nra.
Qed.
