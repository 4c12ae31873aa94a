(** Quadratic peak fit: exactness on parabolas and equivariance. *)
From Verif Require Import Base BaseLemmas UtilsModel UtilsSpec.
Open Scope nat_scope.

(** Linear systems with the 3x3 inverse. *)
Definition mrow (m : mat3) (i : nat) : Q * Q * Q :=
  let '(r0, r1, r2) := m in match i with 0 => r0 | 1 => r1 | _ => r2 end.

Lemma solve3 m y0 y1 y2 z0 z1 z2 : ~ (det3 m == 0)%Q ->
  (y0 == dot3 (mrow m 0) (z0, z1, z2))%Q ->
  (y1 == dot3 (mrow m 1) (z0, z1, z2))%Q ->
  (y2 == dot3 (mrow m 2) (z0, z1, z2))%Q ->
  exists r, inv3 m = Ok r /\
    (dot3 (y0, y1, y2) (mrow r 0) == z0)%Q /\
    (dot3 (y0, y1, y2) (mrow r 1) == z1)%Q /\
    (dot3 (y0, y1, y2) (mrow r 2) == z2)%Q.
Proof.
  destruct m as [[[[a b] c] [[d e] f]] [[g h] i]].
  intros Hd H0 H1 H2. unfold inv3.
  rewrite (proj2 (Qeq_bool_false _ _) Hd).
  eexists. split; [reflexivity|].
  unfold mrow, dot3 in *. unfold det3 in *.
  repeat split; rewrite H0, H1, H2; field; exact Hd.
Qed.

Lemma solve3_ex m y0 y1 y2 r : ~ (det3 m == 0)%Q -> inv3 m = Ok r ->
  let z := (dot3 (y0, y1, y2) (mrow r 0), dot3 (y0, y1, y2) (mrow r 1), dot3 (y0, y1, y2) (mrow r 2)) in
  (y0 == dot3 (mrow m 0) z)%Q /\ (y1 == dot3 (mrow m 1) z)%Q /\ (y2 == dot3 (mrow m 2) z)%Q.
Proof.
  destruct m as [[[[a b] c] [[d e] f]] [[g h] i]].
  intros Hd H. unfold inv3 in H. rewrite (proj2 (Qeq_bool_false _ _) Hd) in H.
  apply Ok_inj in H. subst r. unfold mrow, dot3, det3 in *.
  repeat split; field; exact Hd.
Qed.

Definition gram (tt : list Q) : mat3 :=
  let x0 := map (fun _ => 1%Q) tt in
  let x1 := tt in
  let x2 := map (fun x => x * x)%Q tt in
  ((qdot x0 x0, qdot x1 x0, qdot x2 x0),
   (qdot x0 x1, qdot x1 x1, qdot x2 x1),
   (qdot x0 x2, qdot x1 x2, qdot x2 x2)).

Definition vdm (a b c : Q) : Q := ((b - a) * (c - a) * (c - b))%Q.

Lemma gram_det a b c d e :
  (det3 (gram [a; b; c; d; e]) ==
   vdm a b c * vdm a b c + vdm a b d * vdm a b d + vdm a b e * vdm a b e
   + vdm a c d * vdm a c d + vdm a c e * vdm a c e + vdm a d e * vdm a d e
   + vdm b c d * vdm b c d + vdm b c e * vdm b c e + vdm b d e * vdm b d e
   + vdm c d e * vdm c d e)%Q.
Proof. unfold gram, det3, vdm. cbn [map qdot]. ring. Qed.

Lemma Qsq_nonneg x : (0 <= x * x)%Q.
Proof. nra. Qed.

Lemma gram_det_pos a b c d e : (a < b)%Q -> (b < c)%Q ->
  (0 < det3 (gram [a; b; c; d; e]))%Q.
Proof.
  intros H1 H2. rewrite gram_det.
  assert (P : (0 < vdm a b c)%Q).
  { unfold vdm. assert (X : (0 < b - a)%Q) by lra. assert (Y : (0 < c - a)%Q) by lra.
    assert (Z : (0 < c - b)%Q) by lra.
    apply Qmult_lt_0_compat; [apply Qmult_lt_0_compat|]; assumption. }
  assert (P2 : (0 < vdm a b c * vdm a b c)%Q) by (apply Qmult_lt_0_compat; exact P).
  generalize (Qsq_nonneg (vdm a b d)) (Qsq_nonneg (vdm a b e)) (Qsq_nonneg (vdm a c d))
    (Qsq_nonneg (vdm a c e)) (Qsq_nonneg (vdm a d e)) (Qsq_nonneg (vdm b c d))
    (Qsq_nonneg (vdm b c e)) (Qsq_nonneg (vdm b d e)) (Qsq_nonneg (vdm c d e)).
  generalize dependent (vdm a b c). intros. lra.
Qed.

(** argmax under strictly monotone maps *)
Lemma argmax_map g l : (forall x y, Qlt_bool (g x) (g y) = Qlt_bool x y) ->
  argmax (map g l) = argmax l.
Proof.
  intros H. destruct l as [|a l]; [reflexivity|]. cbn. f_equal.
  generalize 0, 1. revert a. induction l as [|b l IH]; intros a i j; cbn; [reflexivity|].
  rewrite H. destruct (Qlt_bool a b); apply IH.
Qed.

(** window of five *)
Lemma list5 {A} (l : list A) : length l = 5 -> exists a b c d e, l = [a; b; c; d; e].
Proof.
  destruct l as [|a [|b [|c [|d [|e [|]]]]]]; cbn; try discriminate.
  intros _. exists a, b, c, d, e. reflexivity.
Qed.

Lemma quad_window_bounds n i : 5 <= n -> 2 <= quad_window n i /\ quad_window n i + 2 < n.
Proof. unfold quad_window. lia. Qed.

Lemma slice_five {A} (t : list A) i : 2 <= i -> i + 2 < length t ->
  exists a b c d e, slice t (i - 2) (i + 3) = [a; b; c; d; e] /\
    nth_error t (i - 2) = Some a /\ nth_error t (i - 1) = Some b /\ nth_error t i = Some c /\
    nth_error t (i + 1) = Some d /\ nth_error t (i + 2) = Some e.
Proof.
  intros H1 H2. destruct (list5 (slice t (i - 2) (i + 3))) as [a [b [c [d [e E]]]]].
  { rewrite slice_length. lia. }
  exists a, b, c, d, e. split; [exact E|].
  assert (K : forall k, k < 5 -> nth_error t (i - 2 + k) = nth_error [a; b; c; d; e] k).
  { intros k Hk. rewrite <- E, nth_error_slice. destruct (Nat.ltb_spec k (i + 3 - (i - 2))); [reflexivity|lia]. }
  replace (i - 1) with (i - 2 + 1) by lia. replace (i + 1) with (i - 2 + 3) by lia.
  replace (i + 2) with (i - 2 + 4) by lia.
  replace (nth_error t i) with (nth_error t (i - 2 + 2)) by (f_equal; lia).
  generalize (K 0 ltac:(lia)). rewrite Nat.add_0_r. intros K0.
  rewrite K0, (K 1), (K 2), (K 3), (K 4) by lia. cbn. auto.
Qed.

(** The coefficients computed by the fit, as the unique solution of the normal equations. *)
Definition normal_sol (tt ff : list Q) (z0 z1 z2 : Q) : Prop :=
  let m := gram tt in
  (qdot ff (map (fun _ => 1%Q) tt) == dot3 (mrow m 0) (z0, z1, z2))%Q /\
  (qdot ff tt == dot3 (mrow m 1) (z0, z1, z2))%Q /\
  (qdot ff (map (fun x => x * x)%Q tt) == dot3 (mrow m 2) (z0, z1, z2))%Q.

Lemma peak_unfold t f i0 : length t = length f -> 5 <= length t -> increasing t ->
  argmax f = Ok i0 ->
  let i := quad_window (length t) i0 in
  exists ti tt ff, nth_error t i = Some ti /\
    tt = map (fun x => x - ti)%Q (slice t (i - 2) (i + 3)) /\ ff = slice f (i - 2) (i + 3) /\
    (0 < det3 (gram tt))%Q /\
    forall z0 z1 z2, normal_sol tt ff z0 z1 z2 ->
      ((z2 == 0)%Q -> peak_time_via_quadratic_fit t f = Err NonFinite) /\
      (~ (z2 == 0)%Q -> exists tp fp, peak_time_via_quadratic_fit t f = Ok (tp, fp) /\
         (tp == ti - z1 / (2 * z2))%Q /\ (fp == z0 - z1 * z1 / 4 / z2)%Q).
Proof.
  intros HL H5 Hinc Ha i.
  destruct (quad_window_bounds (length t) i0 H5) as [B1 B2]. fold i in B1, B2.
  destruct (slice_five t i B1 B2) as [a [b [c [d [e [Es [N1 [N2 [N3 [N4 N5]]]]]]]]]].
  exists c. do 2 eexists. split; [exact N3|]. split; [reflexivity|]. split; [reflexivity|].
  assert (Hab : (a < b)%Q) by (eapply (Hinc (i - 2) (i - 1)); eauto; lia).
  assert (Hbc : (b < c)%Q) by (eapply (Hinc (i - 1) i); eauto; lia).
  set (tt := map (fun x => x - c)%Q (slice t (i - 2) (i + 3))).
  set (ff := slice f (i - 2) (i + 3)).
  assert (Ett : tt = [a - c; b - c; c - c; d - c; e - c]%Q) by (unfold tt; rewrite Es; reflexivity).
  assert (Hdet : (0 < det3 (gram tt))%Q) by (rewrite Ett; apply gram_det_pos; lra).
  split; [exact Hdet|].
  intros z0 z1 z2 [S0 [S1 S2]].
  destruct (solve3 (gram tt) _ _ _ z0 z1 z2 ltac:(lra) S0 S1 S2) as [r [Hr [R0 [R1 R2]]]].
  assert (U : peak_time_via_quadratic_fit t f =
    let c0 := dot3 (qdot ff (map (fun _ => 1%Q) tt), qdot ff tt, qdot ff (map (fun x => x * x)%Q tt)) (mrow r 0) in
    let c1 := dot3 (qdot ff (map (fun _ => 1%Q) tt), qdot ff tt, qdot ff (map (fun x => x * x)%Q tt)) (mrow r 1) in
    let c2 := dot3 (qdot ff (map (fun _ => 1%Q) tt), qdot ff tt, qdot ff (map (fun x => x * x)%Q tt)) (mrow r 2) in
    if Qeq_bool c2 0 then Err NonFinite
    else Ok (c - c1 / (2 * c2), c0 - c1 * c1 / 4 / c2)%Q).
  { unfold peak_time_via_quadratic_fit. rewrite Ha. cbn [bind]. fold i.
    rewrite (proj2 (get_ok t i c) N3). cbn [bind]. fold tt. fold ff.
    assert (Lt : length tt = 5) by (rewrite Ett; reflexivity). rewrite Lt. cbn [Nat.eqb negb].
    change (inv3 _) with (inv3 (gram tt)).
    rewrite Hr. cbn [bind]. destruct r as [[r0 r1] r2]. reflexivity. }
  cbv zeta in U. split.
  - intros Hz. rewrite U. rewrite (proj2 (Qeq_bool_iff _ 0%Q)); [reflexivity|].
    rewrite R2. exact Hz.
  - intros Hz. rewrite U. rewrite (proj2 (Qeq_bool_false _ 0%Q)).
    + do 2 eexists. split; [reflexivity|]. rewrite R0, R1, R2. split; reflexivity.
    + rewrite R2. exact Hz.
Qed.

Lemma peak_parabola t f i0 A B C : length t = length f -> 5 <= length t -> increasing t ->
  argmax f = Ok i0 -> ~ (C == 0)%Q ->
  (forall j x y, quad_window (length t) i0 - 2 <= j <= quad_window (length t) i0 + 2 ->
     nth_error t j = Some x -> nth_error f j = Some y -> (y == A + B * x + C * (x * x))%Q) ->
  exists tp fp, peak_time_via_quadratic_fit t f = Ok (tp, fp) /\
    (tp == - B / (2 * C))%Q /\ (fp == A - B * B / (4 * C))%Q.
Proof.
  intros HL H5 Hinc Ha HC Hpar.
  destruct (peak_unfold t f i0 HL H5 Hinc Ha) as [ti [tt [ff [Hti [Ett [Eff [_ K]]]]]]].
  set (i := quad_window (length t) i0) in *.
  destruct (quad_window_bounds (length t) i0 H5) as [B1 B2]. fold i in B1, B2.
  destruct (slice_five t i B1 B2) as [a [b [c [d [e [Es [N1 [N2 [N3 [N4 N5]]]]]]]]]].
  destruct (slice_five f i B1 ltac:(lia)) as [fa [fb [fc [fd [fe [Fs [M1 [M2 [M3 [M4 M5]]]]]]]]]].
  assert (Hc : ti = c) by congruence. subst ti.
  rewrite Es in Ett. rewrite Fs in Eff. cbn [map] in Ett.
  destruct (K (A + B * c + C * (c * c)) (B + 2 * C * c) C)%Q as [_ K2].
  { subst tt ff.
    generalize (Hpar (i - 2) _ _ ltac:(lia) N1 M1) (Hpar (i - 1) _ _ ltac:(lia) N2 M2)
      (Hpar i _ _ ltac:(lia) N3 M3) (Hpar (i + 1) _ _ ltac:(lia) N4 M4) (Hpar (i + 2) _ _ ltac:(lia) N5 M5).
    intros P1 P2 P3 P4 P5.
    unfold normal_sol, gram, mrow, dot3. cbn [map qdot].
    repeat split; rewrite P1, P2, P3, P4, P5; ring. }
  destruct (K2 HC) as [tp [fp [Hp [T1 T2]]]]. exists tp, fp. split; [exact Hp|].
  split; [rewrite T1|rewrite T2]; field; exact HC.
Qed.

Lemma qdot_comp u u' : Forall2 Qeq u u' -> forall v v', Forall2 Qeq v v' -> (qdot u v == qdot u' v')%Q.
Proof.
  induction 1 as [|x y u u' E _ IH]; intros v v' Hv; [destruct v, v'; reflexivity|].
  destruct Hv as [|a b v v' E2 Hv]; cbn [qdot]; [reflexivity|].
  rewrite E, E2, (IH _ _ Hv). reflexivity.
Qed.

(** Affine change of time and rescaling of the function. *)
Lemma nth_error_increasing_map a b t : (0 < a)%Q -> increasing t ->
  increasing (map (fun x => a * x + b)%Q t).
Proof.
  intros Ha H i j x y Hij Hx Hy. rewrite nth_error_map in Hx, Hy.
  destruct (nth_error t i) as [x'|] eqn:Ex; [|discriminate].
  destruct (nth_error t j) as [y'|] eqn:Ey; [|discriminate].
  cbn in Hx, Hy. injection Hx as <-. injection Hy as <-.
  specialize (H i j x' y' Hij Ex Ey). nra.
Qed.

Lemma Qlt_bool_scale k x y : (0 < k)%Q -> Qlt_bool (k * x) (k * y) = Qlt_bool x y.
Proof.
  intros Hk. destruct (Qlt_bool x y) eqn:E.
  - apply Qlt_bool_iff in E. apply Qlt_bool_iff. nra.
  - apply Qlt_bool_false in E. apply Qlt_bool_false. nra.
Qed.

Lemma slice_map {A B} (g : A -> B) l a b : slice (map g l) a b = map g (slice l a b).
Proof. unfold slice. now rewrite skipn_map, firstn_map. Qed.

Lemma peak_equivariant t f a b k : length t = length f -> 5 <= length t -> increasing t ->
  (0 < a)%Q -> (0 < k)%Q ->
  match peak_time_via_quadratic_fit t f with
  | Ok (tp, fp) =>
      exists tp' fp', peak_time_via_quadratic_fit (map (fun x => a * x + b)%Q t) (map (fun y => k * y)%Q f)
                        = Ok (tp', fp') /\ (tp' == a * tp + b)%Q /\ (fp' == k * fp)%Q
  | Err e => peak_time_via_quadratic_fit (map (fun x => a * x + b)%Q t) (map (fun y => k * y)%Q f) = Err e
  end.
Proof.
  intros HL H5 Hinc Ha Hk.
  assert (Hf : exists i0, argmax f = Ok i0).
  { destruct f as [|y f]; [cbn in HL; lia|]. cbn. eauto. }
  destruct Hf as [i0 Hi0].
  set (t' := map (fun x => a * x + b)%Q t). set (f' := map (fun y => k * y)%Q f).
  assert (Hi0' : argmax f' = Ok i0).
  { unfold f'. rewrite argmax_map; [exact Hi0|]. intros. now apply Qlt_bool_scale. }
  assert (L' : length t' = length t) by apply map_length.
  assert (Hinc' : increasing t') by (now apply nth_error_increasing_map).
  destruct (peak_unfold t f i0 HL H5 Hinc Hi0) as [ti [tt [ff [Hti [Ett [Eff [Hdet K]]]]]]].
  destruct (peak_unfold t' f' i0) as [ti' [tt' [ff' [Hti' [Ett' [Eff' [Hdet' K']]]]]]]; auto.
  { unfold t', f'. now rewrite !map_length. } { lia. }
  rewrite L' in *. set (i := quad_window (length t) i0) in *.
  destruct (quad_window_bounds (length t) i0 H5) as [B1 B2]. fold i in B1, B2.
  destruct (slice_five t i B1 B2) as [x0 [x1 [x2 [x3 [x4 [Es [N1 [N2 [N3 [N4 N5]]]]]]]]]].
  destruct (slice_five f i B1 ltac:(lia)) as [y0 [y1 [y2 [y3 [y4 [Fs _]]]]]].
  assert (Hc : ti = x2) by congruence. subst ti.
  assert (Hc' : ti' = (a * x2 + b)%Q).
  { unfold t' in Hti'. rewrite nth_error_map, N3 in Hti'. cbn in Hti'. congruence. }
  subst ti'.
  unfold t', f' in Ett', Eff'. rewrite slice_map in Ett', Eff'. rewrite Es in *. rewrite Fs in *.
  cbn [map] in Ett, Ett', Eff, Eff'.
  (* a solution of the original normal equations *)
  destruct (inv3 (gram tt)) as [r|e] eqn:Er.
  2:{ unfold inv3 in Er. destruct (gram tt) as [[[[? ?] ?] [[? ?] ?]] [[? ?] ?]].
      rewrite (proj2 (Qeq_bool_false _ _)) in Er; [discriminate|]. lra. }
  assert (Hd0 : ~ (det3 (gram tt) == 0)%Q) by lra.
  generalize (solve3_ex (gram tt) (qdot ff (map (fun _ => 1%Q) tt)) (qdot ff tt)
                (qdot ff (map (fun x => x * x)%Q tt)) r Hd0 Er).
  cbv zeta.
  set (z0 := dot3 _ (mrow r 0)). set (z1 := dot3 _ (mrow r 1)). set (z2 := dot3 _ (mrow r 2)).
  intros Hz. assert (Hs : normal_sol tt ff z0 z1 z2) by exact Hz. clearbody z0 z1 z2.
  destruct (K z0 z1 z2 Hs) as [KA KB].
  assert (Ha0 : ~ (a == 0)%Q) by lra.
  assert (Hk0 : ~ (k == 0)%Q) by lra.
  destruct (K' (k * z0) (k * z1 / a) (k * z2 / (a * a)))%Q as [KA' KB'].
  { subst tt tt' ff ff'. unfold normal_sol, gram, mrow, dot3 in Hs |- *. cbn [map qdot] in Hs |- *.
    destruct Hs as [S0 [S1 S2]].
    repeat split.
    - transitivity (k * (y0 * 1 + (y1 * 1 + (y2 * 1 + (y3 * 1 + (y4 * 1 + 0))))))%Q; [ring|].
      rewrite S0. field. exact Ha0.
    - transitivity (k * a * (y0 * (x0 - x2) + (y1 * (x1 - x2) + (y2 * (x2 - x2) + (y3 * (x3 - x2) + (y4 * (x4 - x2) + 0))))))%Q; [ring|].
      rewrite S1. field. exact Ha0.
    - transitivity (k * a * a * (y0 * ((x0 - x2) * (x0 - x2)) + (y1 * ((x1 - x2) * (x1 - x2)) + (y2 * ((x2 - x2) * (x2 - x2)) + (y3 * ((x3 - x2) * (x3 - x2)) + (y4 * ((x4 - x2) * (x4 - x2)) + 0))))))%Q; [ring|].
      rewrite S2. field. exact Ha0. }
  destruct (Qeq_dec z2 0) as [Ez|Ez].
  - rewrite (KA Ez). apply KA'. rewrite Ez. field. exact Ha0.
  - destruct (KB Ez) as [tp [fp [Hp [T1 T2]]]]. rewrite Hp.
    destruct KB' as [tp' [fp' [Hp' [T1' T2']]]].
    { intros Z. apply Ez.
      assert (Z1 : (k * z2 == 0)%Q).
      { setoid_replace (k * z2)%Q with (k * z2 / (a * a) * (a * a))%Q by (field; exact Ha0).
        rewrite Z. ring. }
      apply Qmult_integral in Z1. destruct Z1; [contradiction|assumption]. }
    exists tp', fp'. split; [exact Hp'|]. split.
    + rewrite T1', T1. field. repeat split; assumption.
    + rewrite T2', T2. field. repeat split; assumption.
Qed.
