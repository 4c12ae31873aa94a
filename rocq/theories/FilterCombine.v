(** Proofs about the recombination of filtered segments. *)
From Coq Require Import Lia Lqa Sorted.
From Verif Require Import Base BaseLemmas UtilsModel UtilsSpec MeasureModel AverageLemmas SegmentModel SegmentLemmas DataModel DataLemmas DataLemmas2 InitModel
  FilterModel FilterSpec.
Open Scope nat_scope.

(** ** np.interp *)
Lemma scan_at : forall xp fp k a b u v x, increasing xp -> length xp = length fp -> nth_error xp k = Some a -> nth_error xp (S k) = Some b ->
  nth_error fp k = Some u -> nth_error fp (S k) = Some v -> (a <= x)%Q -> (x < b)%Q ->
  interp_scan x xp fp = (u + (v - u) / (b - a) * (x - a))%Q.
Proof.
  induction xp as [|a0 xp IH]; intros fp k a b u v x I L A B U V X1 X2; [destruct k; discriminate|].
  destruct fp as [|u0 fp]; [discriminate|]. destruct xp as [|b0 xp]; [destruct k as [|[|k]]; discriminate|].
  destruct fp as [|v0 fp]; [discriminate|].
  change (interp_scan x (a0 :: b0 :: xp) (u0 :: v0 :: fp)) with
    (if Qlt_bool x b0 then (u0 + (v0 - u0) / (b0 - a0) * (x - a0))%Q else interp_scan x (b0 :: xp) (v0 :: fp)).
  destruct k as [|k].
  - cbn [nth_error] in *. apply Some_inj in A, B, U, V. subst. assert (H : Qlt_bool x b = true) by now apply Qlt_bool_iff. now rewrite H.
  - assert (H : Qlt_bool x b0 = false).
    { apply Qlt_bool_false. apply Qle_trans with a; [|exact X1]. destruct k as [|k]; [cbn in A; apply Some_inj in A; subst; apply Qle_refl|].
      apply Qlt_le_weak. apply (I 1 (S (S k))); [lia|reflexivity|exact A]. }
    rewrite H. apply (IH (v0 :: fp) k); auto. now apply increasing_tl in I.
Qed.
Lemma scan_end : forall xp fp a u x, increasing xp -> length xp = length fp -> nth_error xp (length xp - 1) = Some a ->
  nth_error fp (length fp - 1) = Some u -> (a <= x)%Q -> interp_scan x xp fp = u.
Proof.
  induction xp as [|a0 xp IH]; intros fp a u x I L A U X; [discriminate|]. destruct fp as [|u0 fp]; [discriminate|].
  destruct xp as [|b0 xp].
  - destruct fp; [|discriminate]. cbn in U. apply Some_inj in U. subst. reflexivity.
  - destruct fp as [|v0 fp]; [discriminate|].
    change (interp_scan x (a0 :: b0 :: xp) (u0 :: v0 :: fp)) with
      (if Qlt_bool x b0 then (u0 + (v0 - u0) / (b0 - a0) * (x - a0))%Q else interp_scan x (b0 :: xp) (v0 :: fp)).
    assert (E1 : length (a0 :: b0 :: xp) - 1 = S (length (b0 :: xp) - 1)) by (cbn; lia).
    assert (E2 : length (u0 :: v0 :: fp) - 1 = S (length (v0 :: fp) - 1)) by (cbn; lia).
    rewrite E1 in A. rewrite E2 in U. cbn [nth_error] in A, U.
    assert (H : Qlt_bool x b0 = false).
    { apply Qlt_bool_false. apply Qle_trans with a; [|exact X]. destruct xp as [|c xp]; [cbn in A; apply Some_inj in A; subst; apply Qle_refl|].
      apply Qlt_le_weak. apply (I 1 (S (length (b0 :: c :: xp) - 1))); [cbn; lia|reflexivity|exact A]. }
    rewrite H. apply (IH (v0 :: fp) a); auto. now apply increasing_tl in I.
Qed.

(** ** accumulation *)
Lemma add_at_length full i v : i + length v <= length full -> length (add_at full i v) = length full.
Proof. intros H. unfold add_at. rewrite !app_length, firstn_length, map2_length, !skipn_length. lia. Qed.
Lemma add_at_nth full i v k : i + length v <= length full ->
  nth_error (add_at full i v) k =
  match nth_error full k with
  | None => None
  | Some a => if k <? i then Some a else match nth_error v (k - i) with Some b => Some (a + b)%Q | None => Some a end
  end.
Proof.
  intros H. unfold add_at. destruct (Nat.ltb_spec k i) as [L|L].
  - rewrite nth_error_app1 by (rewrite firstn_length; lia). rewrite nth_error_firstn. destruct (Nat.ltb_spec k i); [|lia]. now destruct (nth_error full k).
  - rewrite nth_error_app2 by (rewrite firstn_length; lia). rewrite firstn_length. replace (Nat.min i (length full)) with i by lia.
    destruct (Nat.lt_ge_cases (k - i) (length v)) as [M|M].
    + rewrite nth_error_app1 by (rewrite map2_length, skipn_length; lia). rewrite nth_error_map2, nth_error_skipn.
      replace (i + (k - i)) with k by lia. destruct (nth_error full k); [|reflexivity].
      destruct (nth_error v (k - i)) eqn:E; [reflexivity|]. apply nth_error_None in E. lia.
    + rewrite nth_error_app2 by (rewrite map2_length, skipn_length; lia). rewrite map2_length, skipn_length.
      replace (Nat.min (length full - i) (length v)) with (length v) by lia. rewrite nth_error_skipn.
      replace (i + length v + (k - i - length v)) with k by lia.
      destruct (nth_error full k); [|reflexivity]. rewrite (proj2 (nth_error_None v (k - i))) by lia. reflexivity.
Qed.
Lemma searchsorted_at t j a : increasing t -> nth_error t j = Some a -> searchsorted t a = j.
Proof.
  intros I E. unfold searchsorted. destruct (find_index (fun x => Qle_bool a x) t) as [i|] eqn:F.
  - apply find_index_some in F. destruct F as ((b & B & L) & M). apply Qle_bool_iff in L.
    destruct (Nat.lt_trichotomy i j) as [H|[H|H]]; [|exact H|].
    + assert (b < a)%Q by (apply (I i j); auto). lra.
    + specialize (M j a H E). cbn in M. apply Qle_bool_false in M. lra.
  - assert (M := find_index_none _ _ F j a E). cbn in M. apply Qle_bool_false in M. lra.
Qed.

Section Combine.
  Variable F : fourier.
  Hypothesis HW : window (fo_hanning F).
  Notation h := (fo_hanning F).

  Lemma add_one t Y W s j : increasing t -> placed t s j -> length Y = length t -> length W = length t ->
    exists Y' W', add_segment F t (Y, W) s = Ok (Y', W') /\ length Y' = length t /\ length W' = length t /\
      forall i y w, nth_error Y i = Some y -> nth_error W i = Some w ->
        exists y' w', nth_error Y' i = Some y' /\ nth_error W' i = Some w' /\
          (w' == w + total_weight (share h i (s, j)))%Q /\ (y' == y + weighted_sum (share h i (s, j)))%Q.
  Proof.
    intros I (PL & P0 & P) LY LW. unfold add_segment.
    destruct (P 0 P0) as [E0 N0]. rewrite Nat.add_0_r in E0, N0.
    assert (exists a, nth_error t j = Some a) as (a & Ea) by (destruct (nth_error t j); [eauto|congruence]).
    assert (G : get (sg_t s) 0 = Ok a) by (apply get_ok; congruence). rewrite G. cbn [bind].
    rewrite (searchsorted_at t j a I Ea). set (m := length (sg_filtered s)) in *.
    assert (B : j + m <= length t).
    { destruct (P (m - 1)) as [_ N]; [lia|]. apply nth_error_Some in N. lia. }
    replace (Nat.min (j + m) (length t) - j) with m by lia.
    destruct (HW m) as [HL HN].
    unfold zip_with. rewrite firstn_all2 by (unfold m; lia). fold m. rewrite HL, Nat.eqb_refl. cbn [bind fst snd].
    assert (ML : length (map2 Qmult (sg_filtered s) (h m)) = m) by (rewrite map2_length, HL; fold m; lia).
    eexists; eexists; split; [reflexivity|]. rewrite !add_at_length by (rewrite ?ML, ?HL; lia). split; [exact LY|]. split; [exact LW|].
    intros i y w Hy Hw. rewrite !add_at_nth by (rewrite ?ML, ?HL; lia). rewrite Hy, Hw. unfold share. fold m.
    destruct (i <? j).
    - exists y, w. repeat (split; [reflexivity|]). cbn. split; ring.
    - rewrite nth_error_map2. destruct (nth_error (sg_filtered s) (i - j)) as [f|] eqn:Ef.
      + assert (i - j < length (h m)). { rewrite HL. apply nth_error_Some. congruence. }
        destruct (nth_error (h m) (i - j)) as [g|] eqn:Eg; [|apply nth_error_None in Eg; lia].
        exists (y + f * g)%Q, (w + g)%Q. repeat (split; [reflexivity|]). cbn. split; ring.
      + apply nth_error_None in Ef. fold m in Ef. rewrite (proj2 (nth_error_None (h m) (i - j))) by lia.
        exists y, w. repeat (split; [reflexivity|]). cbn. split; ring.
  Qed.
  Lemma total_app a b : (total_weight (a ++ b) == total_weight a + total_weight b)%Q.
  Proof. unfold total_weight. induction a as [|p a IH]; cbn [app fold_right]; [ring|]. rewrite IH. ring. Qed.
  Lemma sum_app a b : (weighted_sum (a ++ b) == weighted_sum a + weighted_sum b)%Q.
  Proof. unfold weighted_sum. induction a as [|p a IH]; cbn [app fold_right]; [ring|]. rewrite IH. ring. Qed.
  Lemma add_all t l : increasing t -> Forall (fun p => placed t (fst p) (snd p)) l -> forall Y W, length Y = length t -> length W = length t ->
    exists Y' W', add_segments F t (Y, W) (map fst l) = Ok (Y', W') /\ length Y' = length t /\ length W' = length t /\
      forall i y w, nth_error Y i = Some y -> nth_error W i = Some w ->
        exists y' w', nth_error Y' i = Some y' /\ nth_error W' i = Some w' /\
          (w' == w + total_weight (shares h i l))%Q /\ (y' == y + weighted_sum (shares h i l))%Q.
  Proof.
    intros I. induction l as [|[s j] l IH]; intros P Y W LY LW.
    - exists Y, W. split; [reflexivity|]. repeat (split; [assumption|]). intros i y w Hy Hw. exists y, w. repeat (split; [assumption|]). cbn. split; ring.
    - inversion P as [|? ? P1 P2]; subst. cbn [fst snd] in P1. destruct (add_one t Y W s j I P1 LY LW) as (Y1 & W1 & E1 & L1 & L2 & H1).
      destruct (IH P2 Y1 W1 L1 L2) as (Y2 & W2 & E2 & L3 & L4 & H2). exists Y2, W2. cbn [map fst add_segments]. rewrite E1. cbn [bind].
      split; [exact E2|]. repeat (split; [assumption|]). intros i y w Hy Hw.
      destruct (H1 i y w Hy Hw) as (y1 & w1 & Hy1 & Hw1 & A1 & B1). destruct (H2 i y1 w1 Hy1 Hw1) as (y2 & w2 & Hy2 & Hw2 & A2 & B2).
      exists y2, w2. repeat (split; [assumption|]). unfold shares. cbn [flat_map]. fold (shares h i l). rewrite total_app, sum_app.
      split; [rewrite A2, A1|rewrite B2, B1]; ring.
  Qed.

  (** positions around i in a sorted list *)
  Lemma around idx i : StronglySorted lt idx -> idx <> [] -> ~ In i idx ->
    (exists b, nth_error idx 0 = Some b /\ i < b) \/
    (exists a, nth_error idx (length idx - 1) = Some a /\ a < i) \/
    (exists k a b, nth_error idx k = Some a /\ nth_error idx (S k) = Some b /\ a < i < b).
  Proof.
    induction idx as [|x r IH]; intros S N I; [congruence|]. inversion S as [|? ? S1 S2]; subst.
    destruct (Nat.lt_trichotomy i x) as [L|[->|L]]; [left; exists x; auto|exfalso; apply I; left; reflexivity|].
    destruct r as [|y r]; [right; left; exists x; auto|].
    destruct IH as [(b & B & H)|[(a & A & H)|(k & a & b & A & B & H)]]; auto; [discriminate|intros H; apply I; now right| | |].
    - cbn in B. apply Some_inj in B. subst b. right; right. exists 0, x, y. auto.
    - right; left. exists a. split; [|exact H]. cbn in A |- *. now rewrite Nat.sub_0_r in A.
    - right; right. exists (Datatypes.S k), a, b. auto.
  Qed.

  Lemma recombined t l : increasing t -> Forall (fun p => placed t (fst p) (snd p)) l -> (exists i, i < length t /\ covered h l i) ->
    exists r, combine_segments F t (map fst l) = Ok r /\ length r = length t /\
      forall i v, nth_error r i = Some v ->
        (covered h l i /\ (v * total_weight (shares h i l) == weighted_sum (shares h i l))%Q) \/
        (~ covered h l i /\ filled t r (fun c => c < length t /\ covered h l c) i).
  Proof.
    intros I P (i0 & Hi0 & Hc0). unfold combine_segments. set (z := map (fun _ => 0%Q) t).
    assert (LZ : length z = length t) by apply map_length.
    destruct (add_all t l I P z z LZ LZ) as (Y & W & E & LY & LW & H). rewrite E. cbn [bind fst snd].
    assert (H0 : forall i, i < length t -> exists y w, nth_error Y i = Some y /\ nth_error W i = Some w /\
               (w == total_weight (shares h i l))%Q /\ (y == weighted_sum (shares h i l))%Q).
    { intros i Hi. assert (Z : nth_error z i = Some 0%Q).
      { unfold z. rewrite nth_error_map. destruct (nth_error t i) eqn:Et; [reflexivity|apply nth_error_None in Et; lia]. }
      destruct (H i 0%Q 0%Q Z Z) as (y & w & A & B & D & G). exists y, w. repeat (split; [assumption|]). split; lra. }
    set (idx := where_idx (fun w => Qlt_bool 0 w) W).
    assert (IX : forall i, In i idx <-> i < length t /\ covered h l i).
    { intros i. unfold idx. rewrite where_idx_in. split.
      - intros (w & A & B). assert (Hi : i < length t) by (rewrite <- LW; apply nth_error_Some; congruence). split; [exact Hi|].
        apply Qlt_bool_iff in B. destruct (H0 i Hi) as (y & w' & _ & A' & D & _). unfold covered. rewrite <- D. congruence.
      - intros (Hi & B). destruct (H0 i Hi) as (y & w' & _ & A' & D & _). exists w'. split; [exact A'|]. apply Qlt_bool_iff. rewrite D. exact B. }
    assert (IS : StronglySorted lt idx) by apply where_idx_sorted.
    assert (IF : forall A (q : list A), length q = length t -> exists g, gather q idx = Ok g).
    { intros A q Lq. apply gather_total. apply Forall_forall. intros i Hi. apply IX in Hi. lia. }
    destruct (IF _ t eq_refl) as (xp & Ex). destruct (IF _ Y LY) as (yc & Ey). destruct (IF _ W LW) as (wc & Ew).
    rewrite Ex, Ey, Ew. cbn [bind]. set (fp := map2 Qdiv yc wc).
    assert (Lx := gather_length _ _ _ Ex). assert (Ly := gather_length _ _ _ Ey). assert (Lw := gather_length _ _ _ Ew).
    assert (Lf : length fp = length idx) by (unfold fp; rewrite map2_length; lia).
    assert (NE : idx <> []). { intros N. assert (In i0 idx) as K by now apply IX. rewrite N in K. destruct K. }
    assert (IncX : increasing xp).
    { intros k m a b Hk A B. apply (gather_nth _ _ _ Ex) in A, B. destruct A as (ia & A1 & A2), B as (ib & B1 & B2).
      apply (I ia ib); auto. now apply (SSorted_nth _ IS k m). }
    set (f := fun s yw => if Qlt_bool 0 (snd yw) then (fst yw / snd yw)%Q else np_interp s xp fp).
    set (r := map2 f t (combine Y W)).
    assert (Rn : forall i ti y w, nth_error t i = Some ti -> nth_error Y i = Some y -> nth_error W i = Some w -> nth_error r i = Some (f ti (y, w))).
    { intros i ti y w A B D. unfold r. rewrite nth_error_map2, A.
      assert (X : nth_error (combine Y W) i = Some (y, w)).
      { clear - B D. revert W i B D. induction Y as [|y0 Y IH]; intros W i B D; [destruct i; discriminate|].
        destruct W as [|w0 W]; [destruct i; discriminate|]. destruct i as [|i]; cbn in *; [congruence|auto]. }
      now rewrite X. }
    assert (Rl : length r = length t) by (unfold r; rewrite map2_length, combine_length; lia).
    exists r. split; [destruct xp; [|reflexivity]|].
    { exfalso. cbn in Lx. destruct idx; [congruence|discriminate]. }
    split; [exact Rl|]. intros i v Hv. assert (Hi : i < length t) by (rewrite <- Rl; apply nth_error_Some; congruence).
    assert (exists ti, nth_error t i = Some ti) as (ti & Et) by (destruct (nth_error t i) eqn:X; [eauto|apply nth_error_None in X; lia]).
    destruct (H0 i Hi) as (y & w & A & B & D & G). rewrite (Rn i ti y w Et A B) in Hv. apply Some_inj in Hv. unfold f in Hv. cbn [fst snd] in Hv.
    (* values at covered samples *)
    assert (RC : forall k c a, nth_error idx k = Some c -> nth_error t c = Some a -> exists u, nth_error xp k = Some a /\ nth_error fp k = Some u /\ nth_error r c = Some u).
    { intros k c a Hk Ha. assert (Hc : In c idx) by (eapply nth_error_In; exact Hk). assert (Hc' := Hc). apply IX in Hc'. destruct Hc' as [Hc1 Hc2].
      destruct (H0 c Hc1) as (yc0 & wc0 & A' & B' & D' & G'). exists (yc0 / wc0)%Q.
      split; [apply (gather_nth _ _ _ Ex); eauto|]. split.
      - unfold fp. rewrite nth_error_map2. rewrite (proj2 (gather_nth _ _ _ Ey k yc0)) by eauto. now rewrite (proj2 (gather_nth _ _ _ Ew k wc0)) by eauto.
      - rewrite (Rn c a yc0 wc0 Ha A' B'). unfold f. cbn [fst snd]. unfold covered in Hc2. rewrite <- D' in Hc2. apply Qlt_bool_iff in Hc2. now rewrite Hc2. }
    destruct (Qlt_bool 0 w) eqn:Bw.
    - left. apply Qlt_bool_iff in Bw. split; [unfold covered; rewrite <- D; exact Bw|]. rewrite <- D, <- G, <- Hv. field. lra.
    - right. apply Qlt_bool_false in Bw. assert (NC : ~ covered h l i) by (unfold covered; rewrite <- D; lra). split; [exact NC|].
      assert (NI : ~ In i idx) by (rewrite IX; tauto).
      assert (TE : forall c, In c idx -> exists a, nth_error t c = Some a).
      { intros c Hc. apply IX in Hc. destruct (nth_error t c) eqn:X; [eauto|apply nth_error_None in X; lia]. }
      unfold filled. destruct (around idx i IS NE NI) as [(b & Hb & L)|[(a & Ha & L)|(k & a & b & Ha & Hb & L)]].
      + left. assert (Ib : In b idx) by (eapply nth_error_In; exact Hb). destruct (TE b Ib) as (tb & Eb). destruct (RC 0 b tb Hb Eb) as (u & X1 & X2 & X3).
        exists b, u. split; [exact L|]. split; [now apply IX|]. split.
        { intros c Hc K. apply IX in K. apply In_nth_error in K. destruct K as (m & K). destruct m as [|m]; [assert (c = b) by congruence; lia|].
          assert (b < c) by (apply (SSorted_nth _ IS 0 (Datatypes.S m)); auto; lia). lia. }
        split; [exact X3|]. rewrite (Rn i ti y w Et A B). f_equal. unfold f. cbn [fst snd]. rewrite (proj2 (Qlt_bool_false 0 w) Bw).
        destruct xp as [|x0 xp']; [discriminate|]. destruct fp as [|f0 fp']; [discriminate|]. cbn in X1, X2. apply Some_inj in X1, X2. subst x0 f0.
        unfold np_interp. assert (Lt : (ti < tb)%Q) by (apply (I i b); auto). apply Qlt_bool_iff in Lt. now rewrite Lt.
      + right; left. assert (Ia : In a idx) by (eapply nth_error_In; exact Ha). destruct (TE a Ia) as (ta & Ea).
        destruct (RC _ a ta Ha Ea) as (u & X1 & X2 & X3). exists a, u. split; [exact L|]. split; [now apply IX|]. split.
        { intros c Hc K. apply IX in K. apply In_nth_error in K. destruct K as (m & K).
          assert (m < length idx) by (apply nth_error_Some; congruence). destruct (Nat.eq_dec m (length idx - 1)) as [->|Nm]; [assert (c = a) by congruence; lia|].
          assert (c < a) by (apply (SSorted_nth _ IS m (length idx - 1)); auto; lia). lia. }
        split; [exact X3|]. rewrite (Rn i ti y w Et A B). f_equal. unfold f. cbn [fst snd]. rewrite (proj2 (Qlt_bool_false 0 w) Bw).
        assert (Lt : (ta < ti)%Q) by (apply (I a i); auto).
        destruct xp as [|x0 xp']; [exfalso; cbn in Lx; destruct idx; [congruence|discriminate]|]. destruct fp as [|f0 fp'] eqn:Ef; [exfalso; cbn in Lf; destruct idx; [congruence|discriminate]|]. rewrite <- Ef in *.
        assert (L0 : (x0 <= ta)%Q).
        { destruct (length idx - 1) as [|q] eqn:Eq; [cbn in X1; apply Some_inj in X1; subst; apply Qle_refl|]. apply Qlt_le_weak. apply (IncX 0 (Datatypes.S q)); auto; lia. }
        unfold np_interp. rewrite Ef. rewrite <- Ef. assert (Z : Qlt_bool ti x0 = false) by (apply Qlt_bool_false; lra). rewrite Z.
        apply (scan_end (x0 :: xp') fp ta u ti); auto; [congruence| | |lra]; [rewrite Lx; exact X1|rewrite Lf; exact X2].
      + right; right. assert (Ia : In a idx) by (eapply nth_error_In; exact Ha). assert (Ib : In b idx) by (eapply nth_error_In; exact Hb).
        destruct (TE a Ia) as (ta & Ea). destruct (TE b Ib) as (tb & Eb).
        destruct (RC _ a ta Ha Ea) as (u & X1 & X2 & X3). destruct (RC _ b tb Hb Eb) as (u' & X1' & X2' & X3').
        exists a, b, ta, tb, ti, u, u', (np_interp ti xp fp). split; [exact L|]. split; [now apply IX|]. split; [now apply IX|]. split.
        { intros c Hc K. apply IX in K. apply In_nth_error in K. destruct K as (m & K). destruct (Nat.lt_trichotomy m k) as [M|[->|M]].
          - assert (c < a) by (apply (SSorted_nth _ IS m k); auto). lia.
          - assert (c = a) by congruence. lia.
          - destruct (Nat.eq_dec m (Datatypes.S k)) as [->|Nm]; [assert (c = b) by congruence; lia|]. assert (b < c) by (apply (SSorted_nth _ IS (Datatypes.S k) m); auto; lia). lia. }
        repeat (split; [assumption|]). split.
        { rewrite (Rn i ti y w Et A B). f_equal. unfold f. cbn [fst snd]. now rewrite (proj2 (Qlt_bool_false 0 w) Bw). }
        assert (L1 : (ta < ti)%Q) by (apply (I a i); auto; lia). assert (L2 : (ti < tb)%Q) by (apply (I i b); auto; lia).
        assert (SC : interp_scan ti xp fp = (u + (u' - u) / (tb - ta) * (ti - ta))%Q) by (apply (scan_at xp fp k); auto; [congruence|lra]).
        destruct xp as [|x0 xp'] eqn:Exp; [destruct k; discriminate|]. destruct fp as [|f0 fp'] eqn:Ef; [destruct k; discriminate|].
        assert (L0 : (x0 <= ta)%Q).
        { destruct k as [|q]; [cbn in X1; apply Some_inj in X1; subst; apply Qle_refl|]. apply Qlt_le_weak. apply (IncX 0 (Datatypes.S q)); auto; lia. }
        unfold np_interp. assert (Z : Qlt_bool ti x0 = false) by (apply Qlt_bool_false; lra). rewrite Z, SC. field. lra.
  Qed.
  Lemma uncovered t l : increasing t -> Forall (fun p => placed t (fst p) (snd p)) l -> (forall i, i < length t -> ~ covered h l i) ->
    combine_segments F t (map fst l) = Err ValueError.
  Proof.
    intros I P N. unfold combine_segments. set (z := map (fun _ => 0%Q) t). assert (LZ : length z = length t) by apply map_length.
    destruct (add_all t l I P z z LZ LZ) as (Y & W & E & LY & LW & H). rewrite E. cbn [bind fst snd].
    assert (X : where_idx (fun w => Qlt_bool 0 w) W = []).
    { destruct (where_idx _ W) as [|i r] eqn:Ew; [reflexivity|]. exfalso. assert (K : In i (where_idx (fun w => Qlt_bool 0 w) W)) by (rewrite Ew; now left).
      apply where_idx_in in K. destruct K as (w & A & B). apply Qlt_bool_iff in B.
      assert (Hi : i < length t) by (rewrite <- LW; apply nth_error_Some; congruence). apply (N i Hi). unfold covered.
      assert (Z : nth_error z i = Some 0%Q).
      { unfold z. rewrite nth_error_map. destruct (nth_error t i) eqn:Et; [reflexivity|apply nth_error_None in Et; lia]. }
      destruct (H i 0%Q 0%Q Z Z) as (y & w' & _ & B' & D & _). assert (w' = w) by congruence. subst. lra. }
    rewrite X. reflexivity.
  Qed.

  (** ** bounds *)
  Lemma average_bounds l lo hi v : (forall w y, In (w, y) l -> (0 <= w)%Q) -> (forall w y, In (w, y) l -> (0 < w)%Q -> (lo <= y <= hi)%Q) ->
    (0 < total_weight l)%Q -> (v * total_weight l == weighted_sum l)%Q -> (lo <= v <= hi)%Q.
  Proof.
    intros N B T E.
    assert (X : (lo * total_weight l <= weighted_sum l /\ weighted_sum l <= hi * total_weight l)%Q).
    { clear T E v. induction l as [|[w y] l IH]; cbn; [lra|]. destruct IH as [I1 I2]; [intros; eapply N; right; eauto|intros; eapply B; eauto; right; eauto|].
      unfold total_weight, weighted_sum in *. assert (Nw := N w y (or_introl eq_refl)).
      assert (lo * w <= w * y /\ w * y <= hi * w)%Q; [|lra].
      destruct (Qlt_le_dec 0 w) as [L|L].
      - assert (Bw := B w y (or_introl eq_refl) L). split; [rewrite (Qmult_comm w y)|rewrite (Qmult_comm w y)]; apply Qmult_le_compat_r; lra.
      - assert (Z : (w == 0)%Q) by lra. rewrite Z. lra. }
    destruct X as [X1 X2]. rewrite <- E in X1, X2. apply Qmult_le_r in X1; [|exact T]. apply Qmult_le_r in X2; [|exact T]. auto.
  Qed.
  Lemma share_weight i l w y : In (w, y) (shares h i l) -> (0 <= w)%Q /\ exists s j, In (s, j) l /\ j <= i /\ nth_error (sg_filtered s) (i - j) = Some y.
  Proof.
    intros H. apply in_flat_map in H. destruct H as ([s j] & Hs & H). unfold share in H. destruct (Nat.ltb_spec i j) as [L|L]; [destruct H|].
    destruct (nth_error (h _) (i - j)) as [w'|] eqn:A; [|destruct H]. destruct (nth_error (sg_filtered s) (i - j)) as [y'|] eqn:B; [|destruct H].
    destruct H as [H|[]]. inversion H; subst w' y'. split; [|eauto].
    destruct (HW (length (sg_filtered s))) as [_ P]. rewrite Forall_forall in P. apply P. eapply nth_error_In; exact A.
  Qed.
  Lemma recombined_bounds t l r lo hi : increasing t -> Forall (fun p => placed t (fst p) (snd p)) l ->
    (forall s j y, In (s, j) l -> In y (sg_filtered s) -> (lo <= y <= hi)%Q) ->
    combine_segments F t (map fst l) = Ok r -> forall y, In y r -> (lo <= y <= hi)%Q.
  Proof.
    intros I P B E.
    assert (C : exists i, i < length t /\ covered h l i).
    { assert (D : forall n, (exists i, i < n /\ covered h l i) \/ forall i, i < n -> ~ covered h l i).
      { induction n as [|n [(i & H1 & H2)|H]]; [right; intros; lia|left; exists i; auto|].
        destruct (Qlt_le_dec 0 (total_weight (shares h n l))) as [G|G]; [left; exists n; auto|].
        right. intros i Hi. destruct (Nat.eq_dec i n) as [->|]; [unfold covered; lra|apply H; lia]. }
      destruct (D (length t)) as [X|X]; [exact X|]. rewrite (uncovered t l I P X) in E. discriminate. }
    destruct (recombined t l I P C) as (r' & E' & L & H). rewrite E in E'. apply Ok_inj in E'. subst r'.
    assert (Cov : forall i v, nth_error r i = Some v -> covered h l i -> (lo <= v <= hi)%Q).
    { intros i v Hv Hc. destruct (H i v Hv) as [[_ G]|[N _]]; [|contradiction].
      apply (average_bounds (shares h i l)); auto; [intros w y Hy; now apply share_weight in Hy|].
      intros w y Hy Hw. apply share_weight in Hy. destruct Hy as (_ & s & j & Hs & _ & Hy). eapply B; eauto. eapply nth_error_In; exact Hy. }
    intros y Hy. apply In_nth_error in Hy. destruct Hy as (i & Hi). destruct (H i y Hi) as [[Hc _]|[_ G]]; [eauto|].
    destruct G as [(b & v & _ & [_ Hb] & _ & Rb & Ri)|[(a & v & _ & [_ Ha] & _ & Ra & Ri)|(a & b & ta & tb & ti & u & v & y' & L1 & [_ Ha] & [_ Hb] & _ & Ta & Tb & Ti & Ra & Rb & Ri & Q)]].
    - assert (y = v) by congruence. subst. eauto.
    - assert (y = v) by congruence. subst. eauto.
    - assert (y' = y) by congruence. subst y'. assert (Bu := Cov a u Ra Ha). assert (Bv := Cov b v Rb Hb).
      assert (T1 : (ta < ti)%Q) by (apply (I a i); auto; lia). assert (T2 : (ti < tb)%Q) by (apply (I i b); auto; lia).
      set (k := ((ti - ta) / (tb - ta))%Q) in Q.
      assert (K0 : (0 <= k)%Q) by (apply Qle_shift_div_l; lra). assert (K1 : (k <= 1)%Q) by (apply Qle_shift_div_r; lra).
      assert (Q' : (y == u * (1 - k) + v * k)%Q) by (rewrite Q; ring).
      assert (lo * (1 - k) <= u * (1 - k) /\ u * (1 - k) <= hi * (1 - k))%Q by (split; apply Qmult_le_compat_r; lra).
      assert (lo * k <= v * k /\ v * k <= hi * k)%Q by (split; apply Qmult_le_compat_r; lra).
      rewrite Q'. lra.
  Qed.
End Combine.
