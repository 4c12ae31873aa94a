(** Proofs about apply_filter: the sweep together with the recombination. *)
From Coq Require Import Lia Lqa Sorted.
From Verif Require Import Base BaseLemmas UtilsModel UtilsSpec MeasureModel AverageLemmas SegmentModel SegmentLemmas DataModel DataLemmas DataLemmas2 InitModel
  FitsSpec FitsClaims FilterModel FilterSpec FilterLemmas FilterCombine FilterSweep.
Open Scope nat_scope.

Lemma smallest_gap t : increasing t -> exists d, (0 < d)%Q /\ gaps_at_least t d.
Proof.
  induction t as [|a t IH]; intros I; [exists 1%Q; split; [lra|intros [|i]; discriminate]|].
  destruct (IH (increasing_tl _ _ I)) as (d & D & G). destruct t as [|b t]; [exists 1%Q; split; [lra|intros [|[|i]]; discriminate]|].
  assert (L : (a < b)%Q) by (apply (I 0 1); auto). destruct (Qminb_spec (b - a) d) as (M1 & M2 & M3).
  exists (Qminb (b - a) d). split; [destruct M3 as [-> | ->]; lra|]. intros [|i] u v U V; cbn [nth_error] in *.
  - apply Some_inj in U, V. subst. exact M1.
  - apply Qle_trans with d; [exact M2|eapply G; eauto].
Qed.
Lemma centre_before step tn x : forall cs t0, centres step t0 tn cs -> (t0 <= x)%Q -> (x < tn)%Q ->
  exists k c, nth_error cs k = Some c /\ (c <= x)%Q /\ (x < c + step c)%Q.
Proof.
  induction cs as [|c cs IH]; intros t0 (C0 & C1 & C2 & C3 & C4) A B; [specialize (C0 eq_refl); lra|].
  assert (c = t0) by now apply C1. subst c. destruct (Qlt_le_dec x (t0 + step t0)) as [L|L]; [exists 0, t0; auto|].
  destruct cs as [|c cs]; [specialize (C4 t0 eq_refl); lra|].
  assert (E : c = (t0 + step t0)%Q) by (apply (C2 0); reflexivity).
  destruct (IH (t0 + step t0)%Q) as (k & c' & K & H); [|assumption|assumption|exists (S k), c'; auto].
  split; [discriminate|]. split; [cbn; congruence|]. split; [intros k; apply (C2 (S k))|]. split; [intros u Hu; apply C3; now right|].
  intros u Hu. apply C4. cbn [length] in *. rewrite Nat.sub_succ, Nat.sub_0_r in *. exact Hu.
Qed.
Lemma total_pos l w y : (forall w y, In (w, y) l -> (0 <= w)%Q) -> In (w, y) l -> (0 < w)%Q -> (0 < total_weight l)%Q.
Proof.
  intros N H P. assert (Z : forall l, (forall w y, In (w, y) l -> (0 <= w)%Q) -> (0 <= total_weight l)%Q).
  { clear. induction l as [|[w y] l IH]; intros N; cbn; [lra|]. assert (0 <= w)%Q by (eapply N; left; eauto). unfold total_weight in IH.
    assert (0 <= fold_right (fun p s => fst p + s) 0 l)%Q by (apply IH; intros; eapply N; right; eauto). lra. }
  induction l as [|[w' y'] l IH]; [destruct H|]. cbn. fold (total_weight l). assert (N' : forall w y, In (w, y) l -> (0 <= w)%Q) by (intros; eapply N; right; eauto).
  assert (0 <= w')%Q by (eapply N; left; eauto). assert (ZL := Z l N'). destruct H as [H|H]; [inversion H; subst; lra|]. specialize (IH N' H). lra.
Qed.
Lemma total_zero l : (forall w y, In (w, y) l -> (w == 0)%Q) -> (total_weight l == 0)%Q.
Proof.
  induction l as [|[w y] l IH]; intros N; cbn; [reflexivity|]. fold (total_weight l). rewrite IH by (intros; eapply N; right; eauto).
  rewrite (N w y) by now left. reflexivity.
Qed.

Section Apply.
  Variable F : fourier.
  Notation h := (fo_hanning F).
  Variables (b : filter_obj) (o : filter_options).
  Hypothesis I : increasing (ob_t b).
  Hypothesis L : length (ob_data b) = length (ob_t b).
  Notation adv c := (k_alpha o * ob_delta_T b c)%Q.
  Notation step := (fun c => k_alpha o * ob_delta_T b c)%Q.
  Notation half c := ((1 # 2) * k_size o * ob_delta_T b c)%Q.

  Lemma applied fuel y l : apply_filter F fuel b o = Ok (y, l) ->
    exists t0 tn cs js, nth_error (ob_t b) 0 = Some t0 /\ nth_error (ob_t b) (length (ob_t b) - 1) = Some tn /\
      centres step t0 tn cs /\ length cs = length l /\ length js = length l /\
      (forall k c s j, nth_error cs k = Some c -> nth_error l k = Some s -> nth_error js k = Some j ->
         cut (ob_t b) (ob_data b) (c - half c) (c + half c) (sg_t s) (sg_data s) j /\ 2 <= length (sg_t s) /\ filter_segment F b o c = Ok s) /\
      Forall (fun p => placed (ob_t b) (fst p) (snd p)) (combine l js) /\ map fst (combine l js) = l /\
      combine_segments F (ob_t b) l = Ok y.
  Proof.
    unfold apply_filter. intros H. apply bind_ok in H; destruct H as (t0 & E0 & H). apply bind_ok in H; destruct H as (tn & En & H).
    apply bind_ok in H; destruct H as (l' & El & H). apply bind_ok in H; destruct H as (y' & Ey & H). apply Ok_inj in H. inversion H; subst y' l'; clear H.
    apply get_ok in E0. apply last_of_nth in En. destruct En as [En _]. destruct (sweep_ok F b o tn fuel t0 l El) as (cs & CC & Lc & Hs).
    assert (J : exists js, length js = length l /\ forall k c s j, nth_error cs k = Some c -> nth_error l k = Some s -> nth_error js k = Some j ->
         cut (ob_t b) (ob_data b) (c - half c) (c + half c) (sg_t s) (sg_data s) j /\ 2 <= length (sg_t s) /\ filter_segment F b o c = Ok s /\ placed (ob_t b) s j).
    { clear CC El Ey. revert l Lc Hs. induction cs as [|c cs IH]; intros l Lc Hs.
      - exists []. destruct l; [|discriminate]. split; [reflexivity|]. intros [|k]; discriminate.
      - destruct l as [|s l]; [discriminate|]. destruct (IH l) as (js & Lj & Hj); [cbn in Lc; lia|intros k c' Hk; apply (Hs (S k) c' Hk)|].
        destruct (Hs 0 c eq_refl) as (s' & S1 & S2). cbn in S1. apply Some_inj in S1. subst s'.
        destruct (segment_ok F b o c s I L S2) as (j & trend & A1 & A2 & A3 & _). exists (j :: js). split; [cbn; lia|].
        intros [|k] c' s' j'; cbn [nth_error]; [|apply Hj]. intros X1 X2 X3. apply Some_inj in X1, X2, X3. subst. auto. }
    destruct J as (js & Lj & Hj). exists t0, tn, cs, js. repeat (split; [assumption|]). split; [intros k c s j X1 X2 X3; destruct (Hj k c s j X1 X2 X3) as (Y1 & Y2 & Y3 & _); auto|].
    split; [|split; [|exact Ey]].
    - apply Forall_forall. intros [s j] Hin. apply In_nth_error in Hin. destruct Hin as (k & Hk).
      assert (K : nth_error l k = Some s /\ nth_error js k = Some j).
      { clear - Hk. revert js k Hk. induction l as [|s0 l IH]; intros js k Hk; [destruct k; discriminate|].
        destruct js as [|j0 js]; [destruct k; discriminate|]. destruct k as [|k]; cbn in *; [inversion Hk; auto|auto]. }
      destruct K as [K1 K2]. assert (k < length cs) by (rewrite Lc; apply nth_error_Some; congruence).
      destruct (nth_error cs k) as [c|] eqn:K3; [|apply nth_error_None in K3; lia]. destruct (Hj k c s j K3 K1 K2) as (_ & _ & _ & P). exact P.
    - clear - Lj. revert js Lj. induction l as [|s l IH]; intros [|j js] Lj; try discriminate; [reflexivity|]. cbn. f_equal. apply IH. cbn in Lj. lia.
  Qed.

  (** ** result *)
  Hypothesis W : window h.
  Lemma filtered_length fuel y l : apply_filter F fuel b o = Ok (y, l) -> length y = length (ob_t b).
  Proof.
    intros H. destruct (applied fuel y l H) as (t0 & tn & cs & js & _ & _ & _ & _ & _ & _ & P & M & E). rewrite <- M in E.
    assert (D : forall n, (exists i, i < n /\ covered h (combine l js) i) \/ forall i, i < n -> ~ covered h (combine l js) i).
    { induction n as [|n [(i & H1 & H2)|Hn]]; [right; intros; lia|left; exists i; auto|].
      destruct (Qlt_le_dec 0 (total_weight (shares h n (combine l js)))) as [G|G]; [left; exists n; auto|].
      right. intros i Hi. destruct (Nat.eq_dec i n) as [->|]; [unfold covered; lra|apply Hn; lia]. }
    destruct (D (length (ob_t b))) as [X|X]; [|rewrite (uncovered F W (ob_t b) _ I P X) in E; discriminate].
    destruct (recombined F W (ob_t b) _ I P X) as (r & Er & Lr & _). congruence.
  Qed.
  Lemma step_positive c s j : (0 < k_alpha o)%Q -> (0 < k_size o)%Q -> 2 <= length (sg_t s) ->
    cut (ob_t b) (ob_data b) (c - half c) (c + half c) (sg_t s) (sg_data s) j -> (0 < adv c)%Q.
  Proof.
    intros Pa Ps L2 (C1 & C2 & C3). destruct (C3 0) as (_ & _ & A); [lia|]. destruct (C3 1) as (_ & _ & B); [lia|].
    rewrite Nat.add_0_r in A. rewrite Nat.add_1_r in B.
    destruct (nth_error (ob_t b) j) as [u|] eqn:U; [|congruence]. destruct (nth_error (ob_t b) (S j)) as [v|] eqn:V; [|congruence].
    assert (X := proj2 (C2 j u U)). assert (Y := proj2 (C2 (S j) v V)). destruct X as [X1 X2]; [lia|]. destruct Y as [Y1 Y2]; [lia|].
    assert (u < v)%Q by (apply (I j (S j)); auto). assert (G : (0 < k_size o * ob_delta_T b c)%Q) by lra.
    assert (0 < ob_delta_T b c)%Q; [|now apply Qmult_lt_0_compat]. destruct (Qlt_le_dec 0 (ob_delta_T b c)) as [|N]; [assumption|].
    exfalso. assert (k_size o * ob_delta_T b c <= k_size o * 0)%Q; [|lra]. rewrite !(Qmult_comm (k_size o)). apply Qmult_le_compat_r; lra.
  Qed.
  Lemma centre_ge cs t0 tn : (forall c, In c cs -> (0 < adv c)%Q) -> centres step t0 tn cs -> forall k c, nth_error cs k = Some c -> (t0 <= c)%Q.
  Proof.
    intros P (_ & C1 & C2 & _). induction k as [|k IH]; intros c Hc; [rewrite (C1 c Hc); apply Qle_refl|].
    assert (k < length cs) by (apply Nat.lt_trans with (S k); [lia|]; apply nth_error_Some; congruence).
    destruct (nth_error cs k) as [c'|] eqn:E; [|apply nth_error_None in E; lia]. rewrite (C2 k c' c E Hc).
    assert (X := IH c' eq_refl). assert (Y := P c' (nth_error_In _ _ E)). lra.
  Qed.
  Lemma coverage fuel y l dt t0 tn : hann_like h -> apply_filter F fuel b o = Ok (y, l) -> gaps_at_most (ob_t b) dt ->
    nth_error (ob_t b) 0 = Some t0 -> nth_error (ob_t b) (length (ob_t b) - 1) = Some tn -> (0 < k_alpha o)%Q -> (0 < k_size o)%Q ->
    (forall c, (t0 <= c)%Q -> (c < tn)%Q -> (adv c + dt <= half c)%Q) ->
    exists js, Forall (fun p => placed (ob_t b) (fst p) (snd p)) (combine l js) /\ map fst (combine l js) = l /\
      (forall i, 0 < i -> S i < length (ob_t b) -> covered h (combine l js) i) /\
      (1 < length (ob_t b) -> ~ covered h (combine l js) 0 /\ ~ covered h (combine l js) (length (ob_t b) - 1)).
  Proof.
    intros HH H G T0 Tn Pa Ps HC. destruct (applied fuel y l H) as (t0' & tn' & cs & js & T0' & Tn' & CC & Lc & Lj & Hs & P & M & E).
    assert (t0' = t0) by congruence. assert (tn' = tn) by congruence. subst t0' tn'.
    assert (K3 : forall k, k < length cs -> exists c s j, nth_error cs k = Some c /\ nth_error l k = Some s /\ nth_error js k = Some j).
    { intros k Hk. destruct (nth_error cs k) eqn:A1; [|apply nth_error_None in A1; lia]. destruct (nth_error l k) eqn:A2; [|apply nth_error_None in A2; lia].
      destruct (nth_error js k) eqn:A3; [|apply nth_error_None in A3; lia]. eauto 10. }
    assert (INC : forall k s j, nth_error l k = Some s -> nth_error js k = Some j -> In (s, j) (combine l js)).
    { clear. intros k. revert l js. induction k as [|k IH]; intros [|s0 l] [|j0 js] s j A B; try discriminate; cbn in *; [left; congruence|right; eauto]. }
    assert (SP : forall c, In c cs -> (0 < adv c)%Q).
    { intros c Hc. apply In_nth_error in Hc. destruct Hc as (k & Hk). destruct (K3 k) as (c' & s & j & A1 & A2 & A3); [apply nth_error_Some; congruence|].
      assert (c' = c) by congruence. subst c'. destruct (Hs k c s j A1 A2 A3) as (B1 & B2 & _). now apply (step_positive c s j). }
    exists js. split; [exact P|]. split; [exact M|]. split.
    - intros i Hi1 Hi2.
      assert (TE : forall k, k < length (ob_t b) -> exists a, nth_error (ob_t b) k = Some a).
      { intros k Hk. destruct (nth_error (ob_t b) k) eqn:X; [eauto|apply nth_error_None in X; lia]. }
      destruct i as [|i]; [lia|]. destruct (TE i) as (u & U); [lia|]. destruct (TE (S i)) as (x & X); [lia|]. destruct (TE (S (S i))) as (v & V); [lia|].
      assert (G1 := G i u x U X). assert (G2 := G (S i) x v X V).
      assert (X0 : (t0 <= x)%Q) by (apply (increasing_le _ I 0 (S i)); auto; lia). assert (Xn : (x < tn)%Q) by (apply (I (S i) (length (ob_t b) - 1)); auto; lia).
      destruct (centre_before step tn x cs t0 CC X0 Xn) as (k & c & Kc & C1 & C2). cbn beta in C2.
      destruct (K3 k) as (c' & s & j & A1 & A2 & A3); [apply nth_error_Some; congruence|]. assert (c' = c) by congruence. subst c'.
      destruct (Hs k c s j A1 A2 A3) as ((B1 & B2 & B3) & B4 & _).
      assert (Q0 := SP c (nth_error_In _ _ A1)). assert (Q1 := centre_ge cs t0 tn SP CC k c A1). assert (CC' := CC). destruct CC' as (_ & _ & _ & C3 & _).
      assert (Q2 := C3 c (nth_error_In _ _ A1)). assert (Q3 := HC c Q1 Q2).
      assert (ux : (u < x)%Q) by (apply (I i (S i)); auto). assert (xv : (x < v)%Q) by (apply (I (S i) (S (S i))); auto).
      assert (Wl := proj1 (B2 i u U)). assert (Wr := proj1 (B2 (S (S i)) v V)). destruct Wl as [Wl _]; [split; lra|]. destruct Wr as [_ Wr]; [split; lra|].
      assert (PL : placed (ob_t b) s j). { rewrite Forall_forall in P. apply (P (s, j)). eauto. }
      destruct PL as (PL1 & PL2 & _). set (m := length (sg_filtered s)) in *. destruct (W m) as [WL WN].
      destruct (nth_error (h m) (S i - j)) as [w|] eqn:Ew; [|apply nth_error_None in Ew; lia].
      destruct (nth_error (sg_filtered s) (S i - j)) as [yy|] eqn:Ey; [|apply nth_error_None in Ey; fold m in Ey; lia].
      apply (total_pos _ w yy); [intros ? ? Hin; now apply (share_weight F W) in Hin| |].
      + apply in_flat_map. exists (s, j). split; [eauto|]. unfold share. destruct (Nat.ltb_spec (S i) j); [lia|]. fold m. rewrite Ew, Ey. now left.
      + apply (HH m (S i - j) w Ew). lia.
    - intros N1.
      assert (ZZ : forall i, (i = 0 \/ S i = length (ob_t b)) -> ~ covered h (combine l js) i).
      { intros i Hi. unfold covered. rewrite total_zero; [apply Qlt_irrefl|]. intros w yy Hin. apply in_flat_map in Hin. destruct Hin as ([s j] & Hsj & Hin).
        rewrite Forall_forall in P. assert (PL := P (s, j) Hsj). cbn [fst snd] in PL. destruct PL as (PL1 & PL2 & PL3).
        assert (L2 : 2 <= length (sg_t s)).
        { apply In_nth_error in Hsj. destruct Hsj as (k & Hk).
          assert (K : nth_error l k = Some s /\ nth_error js k = Some j).
          { clear - Hk. revert js k Hk. induction l as [|s0 l' IH]; intros js k Hk; [destruct k; discriminate|].
            destruct js as [|j0 js]; [destruct k; discriminate|]. destruct k as [|k]; cbn in *; [inversion Hk; auto|auto]. }
          destruct K as [K1 K2]. destruct (K3 k) as (c & s' & j' & A1 & A2 & A3); [rewrite Lc; apply nth_error_Some; congruence|].
          assert (s' = s) by congruence. assert (j' = j) by congruence. subst. now destruct (Hs k c s j A1 A2 A3) as (_ & B & _). }
        unfold share in Hin. destruct (Nat.ltb_spec i j); [destruct Hin|].
        destruct (nth_error (h _) (i - j)) as [w'|] eqn:Ew; [|destruct Hin]. destruct (nth_error (sg_filtered s) (i - j)) as [y'|] eqn:Ey; [|destruct Hin].
        destruct Hin as [Hin|[]]. inversion Hin; subst w' y'.
        assert (i - j < length (sg_filtered s)) by (apply nth_error_Some; congruence).
        apply (HH _ _ w Ew); [lia|]. destruct Hi as [->|Hi]; [left; lia|right].
        assert (B : j + length (sg_t s) <= length (ob_t b)).
        { destruct (PL3 (length (sg_t s) - 1)) as [_ B]; [lia|]. apply nth_error_Some in B. lia. }
        lia. }
      split; apply ZZ; lia.
  Qed.
  (** every interior sample is an average of segment values; the outermost samples repeat their neighbours *)
  Lemma filtered_values fuel y l dt t0 tn : hann_like h -> apply_filter F fuel b o = Ok (y, l) -> gaps_at_most (ob_t b) dt -> 3 <= length (ob_t b) ->
    nth_error (ob_t b) 0 = Some t0 -> nth_error (ob_t b) (length (ob_t b) - 1) = Some tn -> (0 < k_alpha o)%Q -> (0 < k_size o)%Q ->
    (forall c, (t0 <= c)%Q -> (c < tn)%Q -> (adv c + dt <= half c)%Q) ->
    exists js, Forall (fun p => placed (ob_t b) (fst p) (snd p)) (combine l js) /\ map fst (combine l js) = l /\
      (forall i v, 0 < i -> S i < length (ob_t b) -> nth_error y i = Some v ->
         (0 < total_weight (shares h i (combine l js)) /\ v * total_weight (shares h i (combine l js)) == weighted_sum (shares h i (combine l js)))%Q) /\
      nth_error y 0 = nth_error y 1 /\ nth_error y (length (ob_t b) - 1) = nth_error y (length (ob_t b) - 2).
  Proof.
    intros HH H G N3 T0 Tn Pa Ps HC. destruct (coverage fuel y l dt t0 tn HH H G T0 Tn Pa Ps HC) as (js & P & M & CV & NC).
    destruct NC as [NC0 NCn]; [lia|]. destruct (applied fuel y l H) as (_ & _ & _ & _ & _ & _ & _ & _ & _ & _ & _ & _ & E). rewrite <- M in E.
    destruct (recombined F W (ob_t b) _ I P) as (r & Er & Lr & Hr); [exists 1; split; [lia|apply CV; lia]|].
    assert (r = y) by congruence. subst r. exists js. split; [exact P|]. split; [exact M|].
    assert (YE : forall k, k < length (ob_t b) -> exists a, nth_error y k = Some a).
    { intros k Hk. destruct (nth_error y k) eqn:X; [eauto|apply nth_error_None in X; lia]. }
    split; [|split].
    - intros i v Hi1 Hi2 Hv. assert (Ci := CV i Hi1 Hi2). destruct (Hr i v Hv) as [[_ X]|[X _]]; [split; [exact Ci|exact X]|contradiction].
    - destruct (YE 0) as (v & Hv); [lia|]. destruct (Hr 0 v Hv) as [[X _]|[_ X]]; [contradiction|].
      destruct X as [(q & u & A & B & D & E1 & E2)|[(q & u & A & _)|(q & r & ? & ? & ? & ? & ? & ? & A & _)]]; [|lia|lia].
      destruct (Nat.lt_ge_cases 1 q) as [G1|G1]; [exfalso; apply (D 1 G1); split; [lia|apply CV; lia]|]. assert (q = 1) by lia. subst q. congruence.
    - set (n := length (ob_t b)) in *. destruct (YE (n - 1)) as (v & Hv); [lia|]. destruct (Hr (n - 1) v Hv) as [[X _]|[_ X]]; [contradiction|].
      destruct X as [(q & u & A & [B _] & _)|[(q & u & A & B & D & E1 & E2)|(q & r & ? & ? & ? & ? & ? & ? & A & _ & [B _] & _)]]; [lia| |lia].
      destruct (Nat.lt_ge_cases q (n - 2)) as [G1|G1]; [exfalso; apply (D (n - 2) G1); split; [lia|apply CV; lia]|]. assert (q = n - 2) by lia. subst q. congruence.
  Qed.

  (** ** termination *)
  Hypothesis fit_ends : forall a m t x, fo_trend F a m t x <> Err OutOfFuel.
  Lemma nf_combine t l : nf (combine_segments F t l).
  Proof.
    unfold combine_segments. cbv zeta. apply nf_bind.
    - generalize (map (fun _ : Q => 0%Q) t, map (fun _ : Q => 0%Q) t) as acc. induction l as [|s l IH]; intros acc; cbn [add_segments]; [discriminate|].
      apply nf_bind; [|intros; apply IH]. unfold add_segment. apply nf_bind; [apply nf_get|]. intros. cbv zeta. apply nf_bind; [apply nf_zip|]. discriminate.
    - intros acc _. do 3 (apply nf_bind; [apply nf_gather|]; intros ? _). destruct a; discriminate.
  Qed.
  Lemma apply_ends : (0 < k_alpha o)%Q -> (0 < k_size o)%Q ->
    exists n, forall fuel, n <= fuel -> apply_filter F fuel b o <> Err OutOfFuel /\ apply_filter F fuel b o = apply_filter F n b o.
  Proof.
    intros Pa Ps. unfold apply_filter. destruct (get (ob_t b) 0) as [t0|e] eqn:E0; [|exists 0; intros; cbn [bind]; split; [|reflexivity]; generalize (nf_get (ob_t b) 0); unfold nf; rewrite E0; congruence].
    destruct (last_of (ob_t b)) as [tn|e] eqn:En; cbn [bind]; [|exists 0; intros; split; [|reflexivity]; generalize (nf_last (ob_t b)); unfold nf; rewrite En; congruence].
    destruct (smallest_gap _ I) as (d & Pd & G).
    set (n := Z.to_nat (Qceiling ((tn - t0) * k_size o / (k_alpha o * d)))).
    assert (PD : (0 < k_alpha o * d)%Q) by now apply Qmult_lt_0_compat.
    assert (B : ((tn - t0) * k_size o <= inject_Z (Z.of_nat n) * (k_alpha o * d))%Q).
    { assert (X : ((tn - t0) * k_size o / (k_alpha o * d) <= inject_Z (Z.of_nat n))%Q).
      { apply Qle_trans with (inject_Z (Qceiling ((tn - t0) * k_size o / (k_alpha o * d)))); [apply Qle_ceiling|]. rewrite <- Zle_Qle. unfold n. lia. }
      apply (Qmult_le_compat_r _ _ (k_alpha o * d)) in X; [|lra].
      assert (R : ((tn - t0) * k_size o / (k_alpha o * d) * (k_alpha o * d) == (tn - t0) * k_size o)%Q) by (field; split; intro Z; rewrite Z in *; lra).
      rewrite R in X. exact X. }
    assert (N := sweep_ends F fit_ends b o tn d I L G Pd Pa Ps n t0 B).
    exists n. intros fuel Hf. rewrite (sweep_more F b o tn n fuel t0 N Hf). split; [|reflexivity].
    apply nf_bind; [exact N|]. intros l _. apply nf_bind; [apply nf_combine|]. discriminate.
  Qed.
  Lemma apply_stuck t0 tn : (k_alpha o == 0)%Q -> nth_error (ob_t b) 0 = Some t0 -> nth_error (ob_t b) (length (ob_t b) - 1) = Some tn -> 1 < length (ob_t b) ->
    (forall c, (c == t0)%Q -> exists s, filter_segment F b o c = Ok s) -> forall fuel, apply_filter F fuel b o = Err OutOfFuel.
  Proof.
    intros A T0 Tn N S fuel. unfold apply_filter. rewrite (proj2 (get_ok _ _ _) T0). cbn [bind].
    destruct (last_of_nonempty (ob_t b)) as (tn' & En); [destruct (ob_t b); [discriminate|congruence]|]. rewrite En. cbn [bind].
    apply last_of_nth in En. destruct En as [En _]. assert (tn' = tn) by congruence. subst tn'.
    rewrite (sweep_stuck F b o tn t0 A) with (ts := t0); [reflexivity| |exact S|reflexivity]. apply (I 0 (length (ob_t b) - 1)); auto. lia.
  Qed.
End Apply.
