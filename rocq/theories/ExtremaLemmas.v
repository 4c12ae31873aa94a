(** Proofs about the clean-up of extrema. *)
From Verif Require Import Base BaseLemmas UtilsModel ExtremaModel ExtremaSpec.
Open Scope nat_scope.

(** ** the warning monad *)
Lemma lbind_ok {A B} (m : lg A) (f : A -> lg B) b :
  snd (lbind m f) = Ok b <-> exists a, snd m = Ok a /\ snd (f a) = Ok b.
Proof.
  unfold lbind. destruct (snd m) as [a|e]; cbn.
  - split; [intros H; exists a; auto|]. intros [a' [H1 H2]]. congruence.
  - split; [discriminate|]. intros [a' [H1 _]]. discriminate.
Qed.
Lemma lbind_val {A B} (m : lg A) (f : A -> lg B) a : snd m = Ok a -> snd (lbind m f) = snd (f a).
Proof. unfold lbind. intros ->. reflexivity. Qed.
Lemma lbind_exn {A B} (m : lg A) (f : A -> lg B) e : snd m = Err e -> snd (lbind m f) = Err e.
Proof. unfold lbind. intros ->. reflexivity. Qed.
Ltac inv_lbind H :=
  let a := fresh "v" in let E := fresh "E" in
  apply lbind_ok in H; destruct H as [a [E H]].

Lemma dbg_quiet msg level imp : quiet level -> snd (dbg msg level imp) = Ok tt.
Proof.
  intros [<-|[<-|[<-|[]]]]; [reflexivity| |reflexivity]. destruct imp; reflexivity.
Qed.
Lemma dbg_cases msg level imp :
  snd (dbg msg level imp) = Ok tt \/ snd (dbg msg level imp) = Err ValueError \/
  snd (dbg msg level imp) = Err GenericException.
Proof.
  unfold dbg, debug_message. destruct (negb _); [cbn; auto|]. destruct (_ =? -1)%Z; [cbn; auto|].
  destruct (_ =? 2)%Z; cbn; auto.
Qed.
Lemma dbg_no_fuel msg level imp : snd (dbg msg level imp) <> Err OutOfFuel.
Proof. destruct (dbg_cases msg level imp) as [E|[E|E]]; rewrite E; discriminate. Qed.
Lemma dbg_ok_tt msg level imp u : snd (dbg msg level imp) = Ok u -> u = tt.
Proof. destruct u. reflexivity. Qed.

(** ** sorted lists and threshold filters *)
Lemma sorted_tail a l : sorted (a :: l) -> sorted l.
Proof. intros H. inversion H; auto. Qed.
Lemma sorted_head a l : sorted (a :: l) -> forall x, In x l -> a < x.
Proof. intros H x Hx. inversion H as [|? ? _ F]; subst. rewrite Forall_forall in F. auto. Qed.
Lemma filter_all {A} (p : A -> bool) l : (forall x, In x l -> p x = true) -> filter p l = l.
Proof.
  induction l as [|a l IH]; cbn; intros H; [reflexivity|].
  rewrite (H a) by auto. f_equal. apply IH. auto.
Qed.
Lemma filter_none {A} (p : A -> bool) l : (forall x, In x l -> p x = false) -> filter p l = [].
Proof.
  induction l as [|a l IH]; cbn; intros H; [reflexivity|].
  rewrite (H a) by auto. apply IH. auto.
Qed.
Lemma keep_le_firstn l : sorted l -> forall k x, nth_error l k = Some x -> keep_le l x = firstn (S k) l.
Proof.
  unfold keep_le. induction l as [|a l IH]; intros Hs k x Hk; [destruct k; discriminate|].
  cbn [filter]. destruct k as [|k]; cbn [nth_error] in Hk.
  - injection Hk as ->. rewrite Nat.leb_refl. cbn [firstn]. f_equal.
    rewrite filter_none; [reflexivity|]. intros y Hy. apply Nat.leb_gt.
    eapply sorted_head; eauto.
  - assert (L : a < x). { eapply sorted_head; eauto. eapply nth_error_In; eauto. }
    replace (a <=? x) with true by (symmetry; apply Nat.leb_le; lia).
    cbn [firstn]. f_equal. apply IH; [eapply sorted_tail; eauto|exact Hk].
Qed.
Lemma keep_ge_skipn l : sorted l -> forall k x, nth_error l k = Some x -> keep_ge l x = skipn k l.
Proof.
  unfold keep_ge. induction l as [|a l IH]; intros Hs k x Hk; [destruct k; discriminate|].
  cbn [filter]. destruct k as [|k]; cbn [nth_error] in Hk.
  - injection Hk as ->. rewrite Nat.leb_refl. cbn [skipn]. f_equal.
    apply filter_all. intros y Hy. apply Nat.leb_le.
    assert (x < y) by (eapply sorted_head; eauto). lia.
  - assert (L : a < x). { eapply sorted_head; eauto. eapply nth_error_In; eauto. }
    replace (x <=? a) with false by (symmetry; apply Nat.leb_gt; lia).
    cbn [skipn]. apply IH; [eapply sorted_tail; eauto|exact Hk].
Qed.
Lemma sorted_firstn l k : sorted l -> sorted (firstn k l).
Proof.
  revert k. induction l as [|a l IH]; intros [|k] H; cbn; try constructor; auto.
  - apply IH. eapply sorted_tail; eauto.
  - inversion H as [|? ? _ F]; subst. rewrite Forall_forall in F |- *.
    intros x Hx. apply F. rewrite <- (firstn_skipn k l). apply in_or_app. auto.
Qed.
Lemma sorted_skipn l k : sorted l -> sorted (skipn k l).
Proof.
  revert k. induction l as [|a l IH]; intros [|k] H; cbn; auto.
  apply IH. eapply sorted_tail; eauto.
Qed.
Lemma block_refl {A} (l : list A) : block_of l l.
Proof. exists [], []. now rewrite app_nil_r. Qed.
Lemma block_firstn {A} (l : list A) k : block_of (firstn k l) l.
Proof. exists [], (skipn k l). now rewrite firstn_skipn. Qed.
Lemma block_skipn {A} (l : list A) k : block_of (skipn k l) l.
Proof. exists (firstn k l), []. now rewrite app_nil_r, firstn_skipn. Qed.
Lemma block_trans {A} (a b c : list A) : block_of a b -> block_of b c -> block_of a c.
Proof.
  intros [p [q ->]] [r [s ->]]. exists (r ++ p), (q ++ s). now rewrite <- !app_assoc.
Qed.
Lemma block_sorted a b : block_of a b -> sorted b -> sorted a.
Proof.
  intros [p [q ->]] H. apply (sorted_skipn _ (length p)) in H.
  rewrite skipn_app, skipn_all, Nat.sub_diag in H. cbn in H.
  apply (sorted_firstn _ (length a)) in H.
  now rewrite firstn_app, firstn_all, Nat.sub_diag, app_nil_r in H.
Qed.
Lemma block_in {A} (a b : list A) x : block_of a b -> In x a -> In x b.
Proof. intros [p [q ->]] H. apply in_or_app. right. apply in_or_app. auto. Qed.

(** ** first and last index found by np.where *)
Lemma where_first {A} (p : A -> bool) l (P : nat -> Prop) k r :
  (forall i, (exists a, nth_error l i = Some a /\ p a = true) <-> P i) ->
  where_idx p l = k :: r -> first_with P k.
Proof.
  intros H E. assert (S := where_idx_sorted p l). rewrite E in S. split.
  - apply H. apply where_idx_in. rewrite E. left. reflexivity.
  - intros j Hj HP. apply H in HP. apply where_idx_in in HP. rewrite E in HP.
    destruct HP as [->|HP]; [lia|]. assert (k < j) by (eapply sorted_head; eauto). lia.
Qed.
Lemma where_last {A} (p : A -> bool) l (P : nat -> Prop) k :
  (forall i, (exists a, nth_error l i = Some a /\ p a = true) <-> P i) ->
  last_of (where_idx p l) = Ok k -> last_with P k.
Proof.
  intros H E. assert (S := where_idx_sorted p l).
  destruct (last_of_inv _ _ E) as [l' El]. split.
  - apply H. apply where_idx_in. rewrite El. apply in_or_app. right. left. reflexivity.
  - intros j Hj HP. apply H in HP. apply where_idx_in in HP.
    apply In_nth_error in HP. destruct HP as [m Hm].
    assert (Lm : m < length (where_idx p l)) by (apply nth_error_Some; congruence).
    assert (Kn : nth_error (where_idx p l) (length l') = Some k).
    { rewrite El, nth_error_app2 by lia. now rewrite Nat.sub_diag. }
    rewrite El, app_length in Lm. cbn in Lm.
    destruct (Nat.eq_dec m (length l')) as [->|N]; [rewrite Kn in Hm; injection Hm as ->; lia|].
    assert (j < k) by (eapply (SSorted_nth _ S m (length l')); eauto; lia). lia.
Qed.
Lemma where_nil {A} (p : A -> bool) l (P : nat -> Prop) :
  (forall i, (exists a, nth_error l i = Some a /\ p a = true) <-> P i) ->
  where_idx p l = [] -> forall k, ~ P k.
Proof.
  intros H E k HP. apply H in HP. apply where_idx_in in HP. rewrite E in HP. destruct HP.
Qed.
Lemma last_of_err {A} (l : list A) e : last_of l = Err e -> l = [].
Proof.
  intros H. destruct l as [|a l]; [reflexivity|].
  destruct (last_of_nonempty (a :: l)) as [b Hb]; [discriminate|congruence].
Qed.
Lemma first_with_unique P a b : first_with P a -> first_with P b -> a = b.
Proof.
  intros [H1 H2] [H3 H4]. destruct (Nat.lt_trichotomy a b) as [L|[L|L]]; auto.
  - exfalso. exact (H4 a L H1).
  - exfalso. exact (H2 b L H3).
Qed.
Lemma last_with_unique P a b : last_with P a -> last_with P b -> a = b.
Proof.
  intros [H1 H2] [H3 H4]. destruct (Nat.lt_trichotomy a b) as [L|[L|L]]; auto.
  - exfalso. exact (H2 b L H3).
  - exfalso. exact (H4 a L H1).
Qed.

(** ** phases at the extrema *)
Section Phase.
  Variables (phase : list Q) (loc : list nat) (ph : list Q).
  Hypothesis Hg : gather phase loc = Ok ph.
  Lemma gather_phase_at k x : nth_error ph k = Some x <-> phase_at phase loc k x.
  Proof. unfold phase_at. exact (gather_nth _ _ _ Hg k x). Qed.
  Lemma gather_advance k d : nth_error (qdiff ph) k = Some d <-> advance phase loc k d.
  Proof.
    rewrite qdiff_nth. unfold advance. split; intros [a [b [H1 [H2 H3]]]]; exists a, b;
      rewrite !gather_phase_at in *; auto.
  Qed.
  Lemma gather_ratio k a b : nth_error (phase_ratios (qdiff ph)) k = Some (a, b) <->
    advance phase loc (S k) a /\ advance phase loc k b.
  Proof.
    rewrite <- !gather_advance. unfold phase_ratios.
    assert (C : forall (u v : list Q) i, nth_error (combine u v) i = Some (a, b) <->
                nth_error u i = Some a /\ nth_error v i = Some b).
    { induction u as [|x u IH]; intros v i; cbn.
      - split; [destruct i; discriminate|]. intros [H _]. destruct i; discriminate.
      - destruct v as [|y v].
        + split; [destruct i; discriminate|]. intros [_ H]. destruct i; discriminate.
        + destruct i as [|i]; cbn; [split; [intros H; split; congruence|intros [H1 H2]; congruence]|].
          apply IH. }
    rewrite C. destruct (qdiff ph) as [|x r]; cbn; [|reflexivity].
    split; intros [H1 H2]; destruct k; discriminate.
  Qed.
  Hypothesis Hp : phase_increasing phase.
  Hypothesis Hs : sorted loc.
  Lemma advance_pos k d : advance phase loc k d -> (0 < d)%Q.
  Proof.
    intros [x [y [[i [H1 H2]] [[j [H3 H4]] ->]]]].
    assert (i < j) by (eapply (SSorted_nth _ Hs k (S k)); eauto).
    specialize (Hp i j x y ltac:(lia) H2 H4). lra.
  Qed.
  Lemma ratio_gt_jump k :
    (exists nd, nth_error (phase_ratios (qdiff ph)) k = Some nd /\
       ratio_gt (fst nd) (snd nd) max_ratio = true) <-> jump_up phase loc k.
  Proof.
    unfold jump_up. split.
    - intros [[a b] [H1 H2]]. cbn [fst snd] in H2. apply gather_ratio in H1. destruct H1 as [H1 H3].
      exists b, a. split; [exact H3|]. split; [exact H1|].
      assert (Pb := advance_pos _ _ H3). unfold ratio_gt in H2.
      rewrite (proj2 (Qeq_bool_false b 0)) in H2 by lra.
      apply Qlt_bool_iff in H2. unfold max_ratio in H2.
      assert (X : ((3 # 2) * b < a / b * b)%Q) by (apply Qmult_lt_r; assumption).
      setoid_replace (a / b * b)%Q with a in X by (field; lra). lra.
    - intros [d [d' [H1 [H2 H3]]]]. exists (d', d). split; [apply gather_ratio; auto|]. cbn [fst snd].
      assert (Pd := advance_pos _ _ H1). unfold ratio_gt.
      rewrite (proj2 (Qeq_bool_false d 0)) by lra. apply Qlt_bool_iff.
      unfold max_ratio. apply Qlt_shift_div_l; lra.
  Qed.
  Lemma ratio_lt_jump k :
    (exists nd, nth_error (phase_ratios (qdiff ph)) k = Some nd /\
       ratio_lt (fst nd) (snd nd) (1 / max_ratio) = true) <-> jump_down phase loc k.
  Proof.
    assert (E : (1 / max_ratio == 2 # 3)%Q) by reflexivity.
    unfold jump_down. split.
    - intros [[a b] [H1 H2]]. cbn [fst snd] in H2. apply gather_ratio in H1. destruct H1 as [H1 H3].
      exists b, a. split; [exact H3|]. split; [exact H1|].
      assert (Pb := advance_pos _ _ H3). unfold ratio_lt in H2.
      rewrite (proj2 (Qeq_bool_false b 0)) in H2 by lra.
      apply Qlt_bool_iff in H2. rewrite E in H2.
      assert (X : (a / b * b < (2 # 3) * b)%Q) by (apply Qmult_lt_r; assumption).
      setoid_replace (a / b * b)%Q with a in X by (field; lra). lra.
    - intros [d [d' [H1 [H2 H3]]]]. exists (d', d). split; [apply gather_ratio; auto|]. cbn [fst snd].
      assert (Pd := advance_pos _ _ H1). unfold ratio_lt.
      rewrite (proj2 (Qeq_bool_false d 0)) by lra. apply Qlt_bool_iff.
      rewrite E. apply Qlt_shift_div_r; lra.
  Qed.
  Lemma too_close_pair m k :
    (exists d, nth_error (qdiff ph) k = Some d /\ Qlt_bool d m = true) <-> close_pair phase loc m k.
  Proof.
    unfold close_pair. split; intros [d [H1 H2]]; exists d;
      [rewrite gather_advance in H1|rewrite gather_advance]; split; auto; now apply Qlt_bool_iff.
  Qed.
  Lemma ratios_length : length (phase_ratios (qdiff ph)) = length loc - 2.
  Proof.
    assert (L := gather_length _ _ _ Hg).
    unfold phase_ratios. rewrite combine_length.
    assert (T : length (tl (qdiff ph)) = length (qdiff ph) - 1) by (destruct (qdiff ph); cbn; lia).
    rewrite T, qdiff_length. lia.
  Qed.
  Lemma diffs_length : length (qdiff ph) = length loc - 1.
  Proof. rewrite qdiff_length. now rewrite (gather_length _ _ _ Hg). Qed.
End Phase.

Lemma advance_dom phase loc k d : advance phase loc k d -> S k < length loc.
Proof. intros [x [y [_ [[j [H _]] _]]]]. apply nth_error_Some. congruence. Qed.
Lemma jump_up_dom phase loc k : jump_up phase loc k -> S (S k) < length loc.
Proof. intros [d [d' [_ [H _]]]]. now apply advance_dom in H. Qed.
Lemma jump_down_dom phase loc k : jump_down phase loc k -> S (S k) < length loc.
Proof. intros [d [d' [_ [H _]]]]. now apply advance_dom in H. Qed.
Lemma close_pair_dom phase loc m k : close_pair phase loc m k -> S k < length loc.
Proof. intros [d [H _]]. now apply advance_dom in H. Qed.

(** Phases seen in a slice. *)
Lemma phase_at_slice phase loc s e k x :
  phase_at phase (slice loc s e) k x <-> (k < e - s /\ phase_at phase loc (s + k) x).
Proof.
  unfold phase_at. split.
  - intros [i [H1 H2]]. rewrite nth_error_slice in H1. destruct (Nat.ltb_spec k (e - s)); [|discriminate].
    split; [lia|]. exists i. auto.
  - intros [L [i [H1 H2]]]. exists i. rewrite nth_error_slice.
    destruct (Nat.ltb_spec k (e - s)); [auto|lia].
Qed.
Lemma advance_slice phase loc s e k d :
  advance phase (slice loc s e) k d <-> (S k < e - s /\ advance phase loc (s + k) d).
Proof.
  unfold advance. split.
  - intros [x [y [H1 [H2 H3]]]]. rewrite phase_at_slice in H1, H2.
    replace (s + S k) with (S (s + k)) in H2 by lia. split; [lia|]. exists x, y. tauto.
  - intros [L [x [y [H1 [H2 H3]]]]]. exists x, y. rewrite !phase_at_slice.
    replace (s + S k) with (S (s + k)) by lia. repeat split; auto; lia.
Qed.
Lemma jump_up_slice phase loc s e k :
  jump_up phase (slice loc s e) k <-> (S (S k) < e - s /\ jump_up phase loc (s + k)).
Proof.
  unfold jump_up. split.
  - intros [d [d' [H1 [H2 H3]]]]. rewrite advance_slice in H1, H2.
    replace (s + S k) with (S (s + k)) in H2 by lia. split; [lia|]. exists d, d'. tauto.
  - intros [L [d [d' [H1 [H2 H3]]]]]. exists d, d'. rewrite !advance_slice.
    replace (s + S k) with (S (s + k)) by lia. repeat split; auto; lia.
Qed.
Lemma jump_down_slice phase loc s e k :
  jump_down phase (slice loc s e) k <-> (S (S k) < e - s /\ jump_down phase loc (s + k)).
Proof.
  unfold jump_down. split.
  - intros [d [d' [H1 [H2 H3]]]]. rewrite advance_slice in H1, H2.
    replace (s + S k) with (S (s + k)) in H2 by lia. split; [lia|]. exists d, d'. tauto.
  - intros [L [d [d' [H1 [H2 H3]]]]]. exists d, d'. rewrite !advance_slice.
    replace (s + S k) with (S (s + k)) by lia. repeat split; auto; lia.
Qed.
Lemma close_pair_slice phase loc m s e k :
  close_pair phase (slice loc s e) m k <-> (S k < e - s /\ close_pair phase loc m (s + k)).
Proof.
  unfold close_pair. split.
  - intros [d [H1 H2]]. rewrite advance_slice in H1. split; [tauto|]. exists d. tauto.
  - intros [L [d [H1 H2]]]. exists d. rewrite advance_slice. auto.
Qed.

Lemma slice_all {A} (l : list A) : slice l 0 (length l) = l.
Proof. unfold slice. rewrite Nat.sub_0_r. cbn [skipn]. apply firstn_all. Qed.
Lemma slice_firstn {A} (l : list A) e : slice l 0 e = firstn e l.
Proof. unfold slice. now rewrite Nat.sub_0_r. Qed.
Lemma skipn_slice {A} (l : list A) s e : skipn s (slice l 0 e) = slice l s e.
Proof. rewrite slice_firstn. unfold slice. apply skipn_firstn_comm. Qed.
Lemma block_slice {A} (l : list A) s e : block_of (slice l s e) l.
Proof. rewrite <- skipn_slice, slice_firstn. eapply block_trans; [apply block_skipn|apply block_firstn]. Qed.

(** ** drop_extrema_if_extrema_jumps *)
Lemma get_val {A} (l : list A) i : i < length l -> exists a, get l i = Ok a /\ nth_error l i = Some a.
Proof. intros H. destruct (get_in_range l i H) as [a Ha]. exists a. split; auto. now apply get_ok. Qed.

Lemma jumps_spec level phase loc :
  quiet level -> phase_increasing phase -> sorted loc -> Forall (fun i => i < length phase) loc ->
  exists s e, snd (drop_extrema_if_extrema_jumps level phase loc max_ratio) = Ok (slice loc s e) /\
    jump_end phase loc e /\ jump_start phase loc s.
Proof.
  intros Hq Hp Hs Hr. unfold drop_extrema_if_extrema_jumps.
  destruct (gather_total phase loc Hr) as [ph Hg].
  rewrite (lbind_val _ _ ph) by (rewrite <- Hg; reflexivity).
  rewrite (ratios_length phase loc ph Hg).
  assert (UP := ratio_gt_jump phase loc ph Hg Hp Hs).
  assert (DN := ratio_lt_jump phase loc ph Hg Hp Hs).
  match goal with |- context [lbind ?m _] =>
    assert (ST1 : exists e, snd m = Ok (slice loc 0 e) /\ jump_end phase loc e) end.
  { destruct (where_idx _ _) as [|f r] eqn:Et.
    - exists (length loc). rewrite slice_all. split; [reflexivity|]. right. split; [|reflexivity].
      intros f [Hf _]. exfalso. eapply where_nil; [exact UP|exact Et|exact Hf].
    - assert (Hf := where_first _ _ _ _ _ UP Et). assert (Df := jump_up_dom _ _ _ (proj1 Hf)).
      destruct (Nat.ltb_spec ((length loc - 2) / 2) f) as [L|L].
      + exists (f + 2). split; [|left; exists f; auto].
        rewrite (lbind_val _ _ tt) by (now apply dbg_quiet).
        destruct (get_val loc (f + 1) ltac:(lia)) as [x [Hx Hx']].
        rewrite (lbind_val _ _ x) by exact Hx. cbn [lret snd].
        rewrite (keep_le_firstn loc Hs _ _ Hx'), slice_firstn. f_equal. f_equal. lia.
      + exists (length loc). rewrite slice_all. split; [reflexivity|]. right. split; [|reflexivity].
        intros f' Hf'. rewrite (first_with_unique _ _ _ Hf' Hf). exact L. }
  destruct ST1 as [e [E1 JE]]. rewrite (lbind_val _ _ _ E1).
  assert (S1 : sorted (slice loc 0 e)) by (rewrite slice_firstn; now apply sorted_firstn).
  destruct (last_of _) as [l|er] eqn:El.
  - assert (Hl := where_last _ _ _ _ DN El). assert (Dl := jump_down_dom _ _ _ (proj1 Hl)).
    destruct (Nat.ltb_spec l ((length loc - 2) / 2)) as [L|L].
    + exists l, e. split; [|split; [exact JE|left; exists l; auto]].
      rewrite (lbind_val _ _ tt) by (now apply dbg_quiet).
      assert (Le : l < e). { destruct JE as [[f [_ [M ->]]]|[_ ->]]; lia. }
      destruct (get_val (slice loc 0 e) l) as [x [Hx Hx']]; [rewrite slice_length; lia|].
      rewrite (lbind_val _ _ x) by exact Hx. cbn [lret snd].
      rewrite (keep_ge_skipn _ S1 _ _ Hx'), skipn_slice. reflexivity.
    + exists 0, e. split; [reflexivity|]. split; [exact JE|]. right. split; [|reflexivity].
      intros l' Hl'. rewrite (last_with_unique _ _ _ Hl' Hl). exact L.
  - exists 0, e. split; [reflexivity|]. split; [exact JE|]. right. split; [|reflexivity].
    intros l' [Hl' _]. exfalso. apply last_of_err in El.
    eapply where_nil; [exact DN|exact El|exact Hl'].
Qed.

(** After a cut at the end no too-wide step is left. *)
Lemma jumps_end_clean phase loc s e f :
  first_with (jump_up phase loc) f -> e = f + 2 -> forall k, ~ jump_up phase (slice loc s e) k.
Proof.
  intros [_ Hf] -> k Hk. apply jump_up_slice in Hk. destruct Hk as [L Hk].
  apply (Hf (s + k)); [lia|exact Hk].
Qed.
(** After a cut at the start the too-wide first step is still there. *)
Lemma jumps_start_survives phase loc l e :
  last_with (jump_down phase loc) l -> l < (length loc - 2) / 2 -> jump_end phase loc e ->
  jump_down phase (slice loc l e) 0.
Proof.
  intros [Hl _] L JE. apply jump_down_slice. rewrite Nat.add_0_r. split; [|exact Hl].
  assert (D := jump_down_dom _ _ _ Hl).
  destruct JE as [[f [_ [M ->]]]|[_ ->]]; lia.
Qed.

(** ** drop_extrema_if_too_close *)
Lemma close_spec level phase loc m :
  quiet level -> sorted loc -> Forall (fun i => i < length phase) loc ->
  exists s e, snd (drop_extrema_if_too_close level phase loc m) = Ok (slice loc s e) /\
    close_end phase loc m e /\ close_start phase loc m s.
Proof.
  intros Hq Hs Hr. unfold drop_extrema_if_too_close.
  destruct (gather_total phase loc Hr) as [ph Hg].
  rewrite (lbind_val _ _ ph) by (rewrite <- Hg; reflexivity).
  rewrite (diffs_length phase loc ph Hg).
  assert (CL := too_close_pair phase loc ph Hg m).
  destruct (where_idx _ _) as [|f r] eqn:Et.
  { exists 0, (length loc). rewrite slice_all. split; [reflexivity|].
    split; right; (split; [|reflexivity]); intros k [Hk _]; exfalso;
      (eapply where_nil; [exact CL|exact Et|exact Hk]). }
  assert (Hf := where_first _ _ _ _ _ CL Et). assert (Df := close_pair_dom _ _ _ _ (proj1 Hf)).
  destruct (last_of (f :: r)) as [l|er] eqn:El; [|apply last_of_err in El; discriminate].
  rewrite <- Et in El. assert (Hl := where_last _ _ _ _ CL El).
  assert (Dl := close_pair_dom _ _ _ _ (proj1 Hl)).
  match goal with |- context [lbind ?mm _] =>
    assert (ST1 : exists e, snd mm = Ok (slice loc 0 e) /\ close_end phase loc m e) end.
  { destruct (Nat.ltb_spec ((length loc - 1) / 2) f) as [L|L].
    - exists (f + 1). split; [|left; exists f; eauto].
      rewrite (lbind_val _ _ tt) by (now apply dbg_quiet).
      destruct (get_val loc f ltac:(lia)) as [x [Hx Hx']].
      rewrite (lbind_val _ _ x) by exact Hx. cbn [lret snd].
      rewrite (keep_le_firstn loc Hs _ _ Hx'), slice_firstn. f_equal. f_equal. lia.
    - exists (length loc). rewrite slice_all. split; [reflexivity|]. right. split; [|reflexivity].
      intros f' Hf'. rewrite (first_with_unique _ _ _ Hf' Hf). exact L. }
  destruct ST1 as [e [E1 JE]]. rewrite (lbind_val _ _ _ E1).
  assert (S1 : sorted (slice loc 0 e)) by (rewrite slice_firstn; now apply sorted_firstn).
  destruct (Nat.ltb_spec l ((length loc - 1) / 2)) as [L|L].
  - exists l, e. split; [|split; [exact JE|left; exists l; auto]].
    rewrite (lbind_val _ _ tt) by (now apply dbg_quiet).
    assert (Le : l < e). { destruct JE as [[f' [_ [M ->]]]|[_ ->]]; lia. }
    destruct (get_val (slice loc 0 e) l) as [x [Hx Hx']]; [rewrite slice_length; lia|].
    rewrite (lbind_val _ _ x) by exact Hx. cbn [lret snd].
    rewrite (keep_ge_skipn _ S1 _ _ Hx'), skipn_slice. reflexivity.
  - exists 0, e. split; [reflexivity|]. split; [exact JE|]. right. split; [|reflexivity].
    intros l' Hl'. rewrite (last_with_unique _ _ _ Hl' Hl). exact L.
Qed.
Lemma close_end_clean phase loc m s e f :
  first_with (close_pair phase loc m) f -> e = f + 1 -> forall k, ~ close_pair phase (slice loc s e) m k.
Proof.
  intros [_ Hf] -> k Hk. apply close_pair_slice in Hk. destruct Hk as [L Hk].
  apply (Hf (s + k)); [lia|exact Hk].
Qed.
(** A cut at the start excludes a cut at the end, and leaves the close pair in place. *)
Lemma close_start_survives phase loc m l e :
  last_with (close_pair phase loc m) l -> l < (length loc - 1) / 2 -> close_end phase loc m e ->
  close_pair phase (slice loc l e) m 0.
Proof.
  intros [Hl Hn] L JE. apply close_pair_slice. rewrite Nat.add_0_r. split; [|exact Hl].
  assert (D := close_pair_dom _ _ _ _ Hl).
  destruct JE as [[f [[Hf _] [M ->]]]|[_ ->]]; [|lia].
  exfalso. apply (Hn f); [lia|exact Hf].
Qed.

(** ** drop_extra_extrema_at_ends *)
Lemma filter_gt_firstn l x : sorted l -> exists k, k <= length l /\
  filter (fun p => x <? p) l = skipn k l /\ (forall p, In p (firstn k l) -> p <= x).
Proof.
  induction l as [|a l IH]; intros Hs; [exists 0; cbn; repeat split; auto; intros p []|].
  cbn [filter]. destruct (Nat.ltb_spec x a) as [L|L].
  - exists 0. cbn [skipn firstn]. repeat split; [lia| |intros p []].
    f_equal. apply filter_all. intros y Hy. apply Nat.ltb_lt.
    assert (a < y) by (eapply sorted_head; eauto). lia.
  - destruct (IH (sorted_tail _ _ Hs)) as [k [K1 [K2 K3]]]. exists (S k). cbn [length skipn firstn].
    repeat split; [lia|exact K2|]. intros p [<-|Hp]; auto.
Qed.
Lemma filter_lt_firstn l x : sorted l -> exists k, k <= length l /\
  filter (fun p => p <? x) l = firstn k l /\ (forall p, In p (skipn k l) -> x <= p).
Proof.
  induction l as [|a l IH]; intros Hs; [exists 0; cbn; repeat split; auto; intros p []|].
  cbn [filter]. destruct (Nat.ltb_spec a x) as [L|L].
  - destruct (IH (sorted_tail _ _ Hs)) as [k [K1 [K2 K3]]]. exists (S k). cbn [length skipn firstn].
    repeat split; [lia|now rewrite K2|exact K3].
  - exists 0. cbn [skipn firstn length]. repeat split; [lia| |].
    + apply filter_none. intros y Hy. apply Nat.ltb_ge.
      assert (a < y) by (eapply sorted_head; eauto). lia.
    + intros p [<-|Hp]; [exact L|]. assert (a < p) by (eapply sorted_head; eauto). lia.
Qed.

Definition trim_end (l : list nat) (x : nat) : list nat :=
  match filter (fun p => x <? p) l with p0 :: _ :: _ => keep_le l p0 | _ => l end.
Definition trim_start (l : list nat) (x : nat) : res (list nat) :=
  if 1 <? length (filter (fun p => p <? x) l)
  then do y <- last_of (filter (fun p => p <? x) l); Ok (keep_ge l y) else Ok l.

Lemma count_le_block p a b : block_of a b -> count p a <= count p b.
Proof.
  intros [u [v ->]]. unfold count. rewrite !filter_app, !app_length. lia.
Qed.
Lemma nth_error_skipn_hd {A} (l : list A) k a r : skipn k l = a :: r -> nth_error l k = Some a.
Proof.
  intros H. assert (E := nth_error_skipn l k 0). rewrite H, Nat.add_0_r in E. cbn in E. congruence.
Qed.
Lemma trim_end_spec l x : sorted l -> l <> [] ->
  trim_end l x <> [] /\ block_of (trim_end l x) l /\
  count (fun p => x <? p) (trim_end l x) <= 1 /\ get (trim_end l x) 0 = get l 0 /\
  (trim_end l x = l \/ exists y, last_of (trim_end l x) = Ok y /\ x < y) /\
  (count (fun p => x <? p) l <= 1 -> trim_end l x = l).
Proof.
  intros Hs Hn. unfold trim_end. destruct (filter_gt_firstn l x Hs) as [k [K1 [K2 K3]]].
  unfold count. destruct (filter (fun p => x <? p) l) as [|p0 [|p1 r]] eqn:F.
  - rewrite F. cbn. repeat split; auto; try lia. apply block_refl.
  - rewrite F. cbn. repeat split; auto; try lia. apply block_refl.
  - assert (N := nth_error_skipn_hd _ _ _ _ (eq_sym K2)).
    rewrite (keep_le_firstn l Hs k p0 N).
    assert (Lk : k < length l) by (apply nth_error_Some; congruence).
    assert (G : x < p0).
    { assert (I : In p0 (filter (fun p => x <? p) l)) by (rewrite F; left; auto).
      apply filter_In in I. destruct I as [_ I]. now apply Nat.ltb_lt in I. }
    assert (E : firstn (S k) l = firstn k l ++ [p0]).
    { clear - N Lk. revert l N Lk. induction k as [|k IH]; intros [|a l] N Lk; cbn in *; try lia.
      - congruence.
      - f_equal. apply IH; [exact N|lia]. }
    repeat split.
    + rewrite E. destruct (firstn k l); discriminate.
    + apply block_firstn.
    + rewrite E, filter_app, app_length. rewrite filter_none.
      * cbn [filter]. destruct (x <? p0); cbn; lia.
      * intros y Hy. apply Nat.ltb_ge. auto.
    + destruct l; [congruence|reflexivity].
    + right. exists p0. rewrite E. split; [apply last_of_app|exact G].
    + cbn. lia.
Qed.
Lemma trim_start_spec l x : sorted l -> l <> [] ->
  exists l1, trim_start l x = Ok l1 /\ l1 <> [] /\ block_of l1 l /\
  count (fun p => p <? x) l1 <= 1 /\ last_of l1 = last_of l /\
  (l1 = l \/ exists y, get l1 0 = Ok y /\ y < x) /\
  (count (fun p => p <? x) l <= 1 -> l1 = l).
Proof.
  intros Hs Hn. unfold trim_start, count.
  destruct (Nat.ltb_spec 1 (length (filter (fun p => p <? x) l))) as [L|L].
  2:{ exists l. repeat split; auto. apply block_refl. }
  destruct (filter_lt_firstn l x Hs) as [k [K1 [K2 K3]]].
  assert (Lk : k = length (filter (fun p => p <? x) l)) by (rewrite K2, firstn_length; lia).
  destruct (last_of_nonempty (filter (fun p => p <? x) l)) as [y Hy];
    [destruct (filter _ l); cbn in *; [lia|discriminate]|].
  rewrite Hy. cbn [bind]. eexists. split; [reflexivity|].
  assert (Ny : nth_error l (k - 1) = Some y).
  { apply last_of_nth in Hy. destruct Hy as [Hy _]. rewrite K2, firstn_length in Hy.
    replace (Nat.min k (length l)) with k in Hy by lia.
    rewrite nth_error_firstn in Hy. destruct (Nat.ltb_spec (k - 1) k); [exact Hy|lia]. }
  assert (Gy : y < x).
  { apply last_of_inv in Hy. destruct Hy as [l' E].
    assert (I : In y (filter (fun p => p <? x) l)) by (rewrite E; apply in_or_app; right; left; auto).
    apply filter_In in I. destruct I as [_ I]. now apply Nat.ltb_lt in I. }
  rewrite (keep_ge_skipn l Hs _ _ Ny).
  assert (E : skipn (k - 1) l = y :: skipn k l).
  { replace k with (S (k - 1)) at 2 by lia. clear - Ny. revert l Ny.
    generalize (k - 1). induction n as [|n IH]; intros [|a l] N; cbn in *; try discriminate.
    - congruence.
    - apply IH. exact N. }
  rewrite E. repeat split.
  - discriminate.
  - rewrite <- E. apply block_skipn.
  - cbn [filter]. rewrite filter_none.
    + destruct (y <? x); cbn; lia.
    + intros z Hz. apply Nat.ltb_ge. auto.
  - rewrite <- E. rewrite <- (firstn_skipn (k - 1) l) at 2.
    destruct (list_last_decomp (skipn (k - 1) l)) as [u [z Ez]]; [rewrite E; discriminate|].
    rewrite Ez, app_assoc, !last_of_app. reflexivity.
  - right. exists y. split; [reflexivity|exact Gy].
  - intros. lia.
Qed.

Lemma ends_val level p a : quiet level ->
  snd (drop_extra_extrema_at_ends level p a) =
  (do a_last <- last_of a; let p1 := trim_end p a_last in
   do p_last <- last_of p1; let a1 := trim_end a p_last in
   do a_first <- get a1 0; do p2 <- trim_start p1 a_first;
   do p_first <- get p2 0; do a2 <- trim_start a1 p_first; Ok (p2, a2)).
Proof.
  intros Hq. unfold drop_extra_extrema_at_ends.
  assert (TE : forall l x msg, snd (match filter (fun p => x <? p) l with
              | p0 :: _ :: _ => let! _ := dbg msg level false in lret (keep_le l p0)
              | _ => lret l end) = Ok (trim_end l x)).
  { intros l x msg. unfold trim_end. destruct (filter _ l) as [|p0 [|p1 r]]; try reflexivity.
    rewrite (lbind_val _ _ tt) by (now apply dbg_quiet). reflexivity. }
  assert (TS : forall l x msg, snd (if 1 <? length (filter (fun p => p <? x) l)
              then let! _ := dbg msg level false in
                   let! y := lift (last_of (filter (fun p => p <? x) l)) in lret (keep_ge l y)
              else lret l) = trim_start l x).
  { intros l x msg. unfold trim_start. destruct (1 <? _); [|reflexivity].
    rewrite (lbind_val _ _ tt) by (now apply dbg_quiet).
    destruct (last_of _) as [y|e]; reflexivity. }
  destruct (last_of a) as [al|e]; [|reflexivity].
  rewrite (lbind_val _ _ al) by reflexivity. cbn [bind].
  rewrite (lbind_val _ _ _ (TE p al _)).
  destruct (last_of (trim_end p al)) as [pl|e]; [|reflexivity].
  rewrite (lbind_val _ _ pl) by reflexivity. cbn [bind].
  rewrite (lbind_val _ _ _ (TE a pl _)).
  destruct (get (trim_end a pl) 0) as [af|e]; [|reflexivity].
  rewrite (lbind_val _ _ af) by reflexivity. cbn [bind].
  specialize (TS (trim_end p al) af) as T1.
  destruct (trim_start (trim_end p al) af) as [p2|e]; [|rewrite (lbind_exn _ _ _ (T1 _)); reflexivity].
  rewrite (lbind_val _ _ _ (T1 _)). cbn [bind].
  destruct (get p2 0) as [pf|e]; [|reflexivity].
  rewrite (lbind_val _ _ pf) by reflexivity. cbn [bind].
  specialize (TS (trim_end a pl) pf) as T2.
  destruct (trim_start (trim_end a pl) pf) as [a2|e]; [|rewrite (lbind_exn _ _ _ (T2 _)); reflexivity].
  rewrite (lbind_val _ _ _ (T2 _)). reflexivity.
Qed.
Lemma last_max l y : sorted l -> last_of l = Ok y -> forall x, In x l -> x <= y.
Proof.
  intros Hs Hy x Hx. apply In_nth_error in Hx. destruct Hx as [i Hi].
  assert (Li : i < length l) by (apply nth_error_Some; congruence).
  apply last_of_nth in Hy. destruct Hy as [Hy _]. destruct (Nat.eq_dec i (length l - 1)) as [->|N]; [rewrite Hy in Hi; injection Hi; lia|].
  assert (x < y) by (eapply (SSorted_nth _ Hs i (length l - 1)); eauto; lia). lia.
Qed.
Lemma head_min l y : sorted l -> get l 0 = Ok y -> forall x, In x l -> y <= x.
Proof.
  intros Hs Hy x Hx. apply get_ok in Hy. destruct l as [|a l]; [discriminate|]. injection Hy as ->.
  destruct Hx as [->|Hx]; [lia|]. assert (y < x) by (eapply sorted_head; eauto). lia.
Qed.
Lemma count_none (p : nat -> bool) l : (forall x, In x l -> p x = false) -> count p l = 0.
Proof. intros H. unfold count. now rewrite filter_none. Qed.

Lemma ends_spec level p a : quiet level -> sorted p -> sorted a -> p <> [] -> a <> [] ->
  exists p' a' pf pl af al,
    snd (drop_extra_extrema_at_ends level p a) = Ok (p', a') /\ block_of p' p /\ block_of a' a /\
    get p' 0 = Ok pf /\ last_of p' = Ok pl /\ get a' 0 = Ok af /\ last_of a' = Ok al /\
    count (fun x => al <? x) p' <= 1 /\ count (fun x => pl <? x) a' <= 1 /\
    count (fun x => x <? af) p' <= 1 /\ count (fun x => x <? pf) a' <= 1.
Proof.
  intros Hq Sp Sa Np Na. rewrite (ends_val _ _ _ Hq).
  destruct (last_of_nonempty a Na) as [al0 Hal0]. rewrite Hal0. cbn [bind].
  destruct (trim_end_spec p al0 Sp Np) as [N1 [B1 [C1 [_ [_ _]]]]].
  set (p1 := trim_end p al0) in *.
  assert (S1 := block_sorted _ _ B1 Sp).
  destruct (last_of_nonempty p1 N1) as [pl Hpl]. rewrite Hpl. cbn [bind].
  destruct (trim_end_spec a pl Sa Na) as [N2 [B2 [C2 [_ [D2 _]]]]].
  set (a1 := trim_end a pl) in *.
  assert (S2 := block_sorted _ _ B2 Sa).
  destruct (get_val a1 0) as [af1 [Haf1 _]]; [destruct a1; cbn in *; [congruence|lia]|].
  rewrite Haf1. cbn [bind].
  destruct (trim_start_spec p1 af1 S1 N1) as [p2 [E3 [N3 [B3 [C3 [L3 [_ _]]]]]]].
  rewrite E3. cbn [bind].
  destruct (get_val p2 0) as [pf [Hpf _]]; [destruct p2; cbn in *; [congruence|lia]|].
  rewrite Hpf. cbn [bind].
  destruct (trim_start_spec a1 pf S2 N2) as [a2 [E4 [N4 [B4 [C4 [L4 [D4 _]]]]]]].
  rewrite E4. cbn [bind].
  destruct (last_of_nonempty a1 N2) as [al Hal].
  destruct (get_val a2 0) as [af [Haf _]]; [destruct a2; cbn in *; [congruence|lia]|].
  assert (S3 := block_sorted _ _ B3 S1). assert (S4 := block_sorted _ _ B4 S2).
  exists p2, a2, pf, pl, af, al.
  assert (CE : count (fun x => al <? x) p1 <= 1).
  { destruct D2 as [D2|[y [Hy Ly]]].
    - rewrite D2, Hal0 in Hal. apply Ok_inj in Hal. subst al0. exact C1.
    - rewrite Hal in Hy. apply Ok_inj in Hy. subst y.
      rewrite count_none; [lia|]. intros x Hx. apply Nat.ltb_ge.
      assert (x <= pl) by exact (last_max p1 pl S1 Hpl x Hx). lia. }
  repeat split; auto; try congruence.
  - eapply block_trans; eauto.
  - eapply block_trans; eauto.
  - eapply Nat.le_trans; [apply count_le_block; exact B3|exact CE].
  - eapply Nat.le_trans; [apply count_le_block; exact B4|exact C2].
  - destruct D4 as [D4|[y [Hy Ly]]].
    + subst a2. rewrite Haf1 in Haf. apply Ok_inj in Haf. subst af1. exact C3.
    + rewrite Haf in Hy. apply Ok_inj in Hy. subst y.
      rewrite count_none; [lia|]. intros x Hx. apply Nat.ltb_ge.
      assert (pf <= x) by exact (head_min p2 pf S3 Hpf x Hx). lia.
Qed.
(** Lists that already satisfy the four conditions are returned unchanged. *)
Lemma ends_fixed level p a pf pl af al : quiet level -> sorted p -> sorted a ->
  get p 0 = Ok pf -> last_of p = Ok pl -> get a 0 = Ok af -> last_of a = Ok al ->
  count (fun x => al <? x) p <= 1 -> count (fun x => pl <? x) a <= 1 ->
  count (fun x => x <? af) p <= 1 -> count (fun x => x <? pf) a <= 1 ->
  snd (drop_extra_extrema_at_ends level p a) = Ok (p, a).
Proof.
  intros Hq Sp Sa Hpf Hpl Haf Hal C1 C2 C3 C4. rewrite (ends_val _ _ _ Hq). rewrite Hal. cbn [bind].
  assert (Np : p <> []) by (intros ->; discriminate Hpf).
  assert (Na : a <> []) by (intros ->; discriminate Haf).
  destruct (trim_end_spec p al Sp Np) as [_ [_ [_ [_ [_ E1]]]]]. rewrite (E1 C1), Hpl. cbn [bind].
  destruct (trim_end_spec a pl Sa Na) as [_ [_ [_ [_ [_ E2]]]]]. rewrite (E2 C2), Haf. cbn [bind].
  destruct (trim_start_spec p af Sp Np) as [p2 [T3 [_ [_ [_ [_ [_ E3]]]]]]].
  rewrite T3, (E3 C3). cbn [bind]. rewrite Hpf. cbn [bind].
  destruct (trim_start_spec a pf Sa Na) as [a2 [T4 [_ [_ [_ [_ [_ E4]]]]]]].
  rewrite T4, (E4 C4). reflexivity.
Qed.

(** ** get_good_extrema *)
Lemma forall_block {A} (P : A -> Prop) a b : block_of a b -> Forall P b -> Forall P a.
Proof. rewrite !Forall_forall. intros B H x Hx. apply H. eapply block_in; eauto. Qed.
Lemma good_total level phase p a :
  quiet level -> phase_increasing phase -> sorted p -> sorted a ->
  Forall (fun i => i < length phase) p -> Forall (fun i => i < length phase) a ->
  exists p1 a1 p2 a2,
    snd (drop_extrema_if_extrema_jumps level phase p max_ratio) = Ok p1 /\
    snd (drop_extrema_if_extrema_jumps level phase a max_ratio) = Ok a1 /\
    snd (drop_extrema_if_too_close level phase p1 four_pi) = Ok p2 /\
    snd (drop_extrema_if_too_close level phase a1 four_pi) = Ok a2 /\
    block_of p1 p /\ block_of p2 p1 /\ block_of a1 a /\ block_of a2 a1 /\
    (p <> [] -> p2 <> []) /\ (a <> [] -> a2 <> []) /\
    snd (get_good_extrema level phase p a) = snd (drop_extra_extrema_at_ends level p2 a2).
Proof.
  intros Hq Hp Sp Sa Rp Ra.
  assert (NE1 : forall l, jump_start phase l 0 \/ True) by auto. clear NE1.
  assert (J : forall l, sorted l -> Forall (fun i => i < length phase) l ->
     exists l1, snd (drop_extrema_if_extrema_jumps level phase l max_ratio) = Ok l1 /\ block_of l1 l /\
       (l <> [] -> l1 <> [])).
  { intros l Sl Rl. destruct (jumps_spec level phase l Hq Hp Sl Rl) as [s [e [E [JE JS]]]].
    exists (slice l s e). split; [exact E|]. split; [apply block_slice|].
    intros N H. apply (f_equal (@length _)) in H. rewrite slice_length in H. cbn in H.
    assert (0 < length l) by (destruct l; cbn; [congruence|lia]).
    assert (s < e /\ s < length l); [|lia].
    assert (Md : (length l - 2) / 2 <= length l - 2) by (apply Nat.div_le_upper_bound; lia).
    destruct JE as [[f [_ [M ->]]]|[_ ->]]; destruct JS as [[k [K [M' ->]]]|[_ ->]]; lia. }
  assert (C : forall l, sorted l -> Forall (fun i => i < length phase) l ->
     exists l1, snd (drop_extrema_if_too_close level phase l four_pi) = Ok l1 /\ block_of l1 l /\
       (l <> [] -> l1 <> [])).
  { intros l Sl Rl. destruct (close_spec level phase l four_pi Hq Sl Rl) as [s [e [E [JE JS]]]].
    exists (slice l s e). split; [exact E|]. split; [apply block_slice|].
    intros N H. apply (f_equal (@length _)) in H. rewrite slice_length in H. cbn in H.
    assert (0 < length l) by (destruct l; cbn; [congruence|lia]).
    assert (s < e /\ s < length l); [|lia].
    assert (Md : (length l - 1) / 2 <= length l - 1) by (apply Nat.div_le_upper_bound; lia).
    destruct JE as [[f [_ [M ->]]]|[_ ->]]; destruct JS as [[k [K [M' ->]]]|[_ ->]]; lia. }
  destruct (J p Sp Rp) as [p1 [E1 [B1 N1]]]. destruct (J a Sa Ra) as [a1 [E2 [B2 N2]]].
  destruct (C p1 (block_sorted _ _ B1 Sp) (forall_block _ _ _ B1 Rp)) as [p2 [E3 [B3 N3]]].
  destruct (C a1 (block_sorted _ _ B2 Sa) (forall_block _ _ _ B2 Ra)) as [a2 [E4 [B4 N4]]].
  exists p1, a1, p2, a2. repeat split; auto.
  unfold get_good_extrema.
  rewrite (lbind_val _ _ _ E1), (lbind_val _ _ _ E2), (lbind_val _ _ _ E3), (lbind_val _ _ _ E4).
  reflexivity.
Qed.

Lemma good_spec level phase p a :
  quiet level -> phase_increasing phase -> sorted p -> sorted a -> p <> [] -> a <> [] ->
  Forall (fun i => i < length phase) p -> Forall (fun i => i < length phase) a ->
  exists p' a' pf pl af al,
    snd (get_good_extrema level phase p a) = Ok (p', a') /\
    block_of p' p /\ block_of a' a /\
    get p' 0 = Ok pf /\ last_of p' = Ok pl /\ get a' 0 = Ok af /\ last_of a' = Ok al /\
    count (fun x => al <? x) p' <= 1 /\ count (fun x => pl <? x) a' <= 1 /\
    count (fun x => x <? af) p' <= 1 /\ count (fun x => x <? pf) a' <= 1.
Proof.
  intros Hq Hp Sp Sa Np Na Rp Ra.
  destruct (good_total level phase p a Hq Hp Sp Sa Rp Ra)
    as [p1 [a1 [p2 [a2 [_ [_ [_ [_ [B1 [B2 [B3 [B4 [N1 [N2 E]]]]]]]]]]]]]].
  assert (Bp := block_trans _ _ _ B2 B1). assert (Ba := block_trans _ _ _ B4 B3).
  destruct (ends_spec level p2 a2 Hq (block_sorted _ _ Bp Sp) (block_sorted _ _ Ba Sa) (N1 Np) (N2 Na))
    as [p' [a' [pf [pl [af [al [E' [Bp' [Ba' R]]]]]]]]].
  exists p', a', pf, pl, af, al. rewrite E. repeat split; try tauto.
  - eapply block_trans; eauto.
  - eapply block_trans; eauto.
Qed.
Lemma good_empty level phase p a :
  quiet level -> phase_increasing phase -> sorted p -> sorted a ->
  Forall (fun i => i < length phase) p -> Forall (fun i => i < length phase) a ->
  p = [] \/ a = [] -> snd (get_good_extrema level phase p a) = Err IndexError.
Proof.
  intros Hq Hp Sp Sa Rp Ra H.
  destruct (good_total level phase p a Hq Hp Sp Sa Rp Ra)
    as [p1 [a1 [p2 [a2 [_ [_ [_ [_ [B1 [B2 [B3 [B4 [N1 [N2 E]]]]]]]]]]]]]].
  assert (Z : forall u v : list nat, block_of u v -> v = [] -> u = []).
  { intros u v [x [y Ex]] ->. symmetry in Ex. apply app_eq_nil in Ex. destruct Ex as [_ Ex].
    apply app_eq_nil in Ex. tauto. }
  rewrite E, (ends_val _ _ _ Hq).
  destruct H as [-> | ->].
  - assert (p2 = []) by (eapply Z; [exact B2|]; eapply Z; [exact B1|reflexivity]). subst p2.
    destruct (last_of a2) as [al|e] eqn:El; cbn [bind].
    + reflexivity.
    + assert (a2 = []) by (eapply last_of_err; eauto). subst a2. cbn in El. congruence.
  - assert (a2 = []) by (eapply Z; [exact B4|]; eapply Z; [exact B3|reflexivity]). subst a2. reflexivity.
Qed.

(** ** get_apocenters_from_pericenters *)
Lemma apo_cons a b r : get_apocenters_from_pericenters (a :: b :: r) =
  (a + b) / 2 :: get_apocenters_from_pericenters (b :: r).
Proof. reflexivity. Qed.
Lemma apo_length p : length (get_apocenters_from_pericenters p) = length p - 1.
Proof.
  induction p as [|a [|b r] IH]; try reflexivity. rewrite apo_cons.
  change (S (length (get_apocenters_from_pericenters (b :: r))) = S (S (length r)) - 1).
  rewrite IH. cbn. lia.
Qed.
Lemma apo_nth p : forall k m, nth_error (get_apocenters_from_pericenters p) k = Some m <->
  exists a b, nth_error p k = Some a /\ nth_error p (S k) = Some b /\ m = (a + b) / 2.
Proof.
  induction p as [|a p IH]; intros k m.
  { split; [destruct k; discriminate|]. intros [x [y [H _]]]. destruct k; discriminate. }
  destruct p as [|b r].
  { cbn. split; [destruct k; discriminate|]. intros [x [y [_ [H _]]]]. destruct k; discriminate. }
  rewrite apo_cons. destruct k as [|k].
  - cbn. split; [intros H; exists a, b; repeat split; congruence|].
    intros [x [y [H1 [H2 ->]]]]. congruence.
  - cbn [nth_error]. rewrite IH. reflexivity.
Qed.
Lemma apo_between p : sorted p -> forall k m a b,
  nth_error (get_apocenters_from_pericenters p) k = Some m ->
  nth_error p k = Some a -> nth_error p (S k) = Some b ->
  a <= m /\ m < b /\ (a + 1 < b -> a < m) /\ (2 * m = a + b \/ 2 * m + 1 = a + b).
Proof.
  intros Hs k m a b Hm Ha Hb. apply apo_nth in Hm. destruct Hm as [a' [b' [H1 [H2 ->]]]].
  assert (a' = a) by congruence. assert (b' = b) by congruence. subst.
  assert (a < b) by (eapply (SSorted_nth _ Hs k (S k)); eauto).
  assert (D := Nat.div_mod (a + b) 2 ltac:(lia)). assert (M := Nat.mod_upper_bound (a + b) 2 ltac:(lia)).
  lia.
Qed.
Lemma apo_sorted p : sorted p -> sorted (get_apocenters_from_pericenters p).
Proof.
  induction p as [|a p IH]; intros Hs; [constructor|].
  destruct p as [|b r]; [constructor|].
  rewrite apo_cons. constructor; [apply IH; eapply sorted_tail; eauto|].
  rewrite Forall_forall. intros x Hx. apply In_nth_error in Hx. destruct Hx as [k Hk].
  assert (a < b) by (eapply sorted_head; [exact Hs|left; reflexivity]).
  assert (M1 : (a + b) / 2 < b) by (apply Nat.div_lt_upper_bound; lia).
  assert (Lk : k < length (get_apocenters_from_pericenters (b :: r))) by (apply nth_error_Some; congruence).
  rewrite apo_length in Lk.
  destruct (nth_error (b :: r) k) as [u|] eqn:Eu; [|apply nth_error_None in Eu; lia].
  destruct (nth_error (b :: r) (S k)) as [v|] eqn:Ev; [|apply nth_error_None in Ev; lia].
  destruct (apo_between _ (sorted_tail _ _ Hs) _ _ _ _ Hk Eu Ev) as [Q1 _].
  assert (b <= u). { eapply head_min; [eapply sorted_tail; exact Hs|reflexivity|eapply nth_error_In; eauto]. }
  lia.
Qed.

(** ** cleaning only trims, for any phase values and any debug level *)
Lemma keep_le_block l x : sorted l -> block_of (keep_le l x) l.
Proof.
  intros Hs. destruct (filter_gt_firstn l x Hs) as [k [_ [K2 K3]]].
  assert (E : keep_le l x = firstn k l); [|rewrite E; apply block_firstn].
  unfold keep_le. rewrite <- (firstn_skipn k l) at 1. rewrite filter_app, filter_all, filter_none, app_nil_r; auto.
  - intros y Hy. apply Nat.leb_gt. rewrite <- K2 in Hy. apply filter_In in Hy. now apply Nat.ltb_lt.
  - intros y Hy. apply Nat.leb_le. auto.
Qed.
Lemma keep_ge_block l x : sorted l -> block_of (keep_ge l x) l.
Proof.
  intros Hs. destruct (filter_lt_firstn l x Hs) as [k [_ [K2 K3]]].
  assert (E : keep_ge l x = skipn k l); [|rewrite E; apply block_skipn].
  unfold keep_ge. rewrite <- (firstn_skipn k l) at 1. rewrite filter_app, filter_none, filter_all; auto.
  - intros y Hy. apply Nat.leb_le. auto.
  - intros y Hy. apply Nat.leb_gt. rewrite <- K2 in Hy. apply filter_In in Hy. now apply Nat.ltb_lt.
Qed.
Ltac lsimp H := repeat (inv_lbind H); cbn [lret snd] in H; apply Ok_inj in H; subst.
Lemma jumps_block level phase l m r : sorted l ->
  snd (drop_extrema_if_extrema_jumps level phase l m) = Ok r -> block_of r l.
Proof.
  intros Hs H. unfold drop_extrema_if_extrema_jumps in H. inv_lbind H. inv_lbind H.
  assert (B : block_of v0 l).
  { destruct (where_idx _ _) as [|f q]; [lsimp E0; apply block_refl|].
    destruct (_ <? f); lsimp E0; [now apply keep_le_block|apply block_refl]. }
  assert (S0 := block_sorted _ _ B Hs). eapply block_trans; [|exact B].
  destruct (last_of _) as [k|e]; [|lsimp H; apply block_refl].
  destruct (k <? _); lsimp H; [now apply keep_ge_block|apply block_refl].
Qed.
Lemma close_block level phase l m r : sorted l ->
  snd (drop_extrema_if_too_close level phase l m) = Ok r -> block_of r l.
Proof.
  intros Hs H. unfold drop_extrema_if_too_close in H. inv_lbind H.
  destruct (where_idx _ _) as [|f q]; [lsimp H; apply block_refl|].
  destruct (last_of _) as [k|e]; [|lsimp H; apply block_refl].
  inv_lbind H.
  assert (B : block_of v0 l).
  { destruct (_ <? f); lsimp E0; [now apply keep_le_block|apply block_refl]. }
  assert (S0 := block_sorted _ _ B Hs). eapply block_trans; [|exact B].
  destruct (k <? _); lsimp H; [now apply keep_ge_block|apply block_refl].
Qed.
Lemma ends_block level p a r : sorted p -> sorted a ->
  snd (drop_extra_extrema_at_ends level p a) = Ok r -> block_of (fst r) p /\ block_of (snd r) a.
Proof.
  intros Sp Sa H. unfold drop_extra_extrema_at_ends in H.
  inv_lbind H. inv_lbind H. inv_lbind H. inv_lbind H. inv_lbind H. inv_lbind H. inv_lbind H. inv_lbind H.
  cbn [lret snd] in H. apply Ok_inj in H. subst r. cbn [fst snd].
  assert (B1 : block_of v0 p).
  { destruct (filter _ p) as [|x [|y q]]; lsimp E0; try apply block_refl. now apply keep_le_block. }
  assert (B2 : block_of v2 a).
  { destruct (filter _ a) as [|x [|y q]]; lsimp E2; try apply block_refl. now apply keep_le_block. }
  assert (S1 := block_sorted _ _ B1 Sp). assert (S2 := block_sorted _ _ B2 Sa).
  split; [eapply block_trans; [|exact B1]|eapply block_trans; [|exact B2]].
  - clear E6. destruct (1 <? _); lsimp E4; [now apply keep_ge_block|apply block_refl].
  - clear E4. destruct (1 <? _); lsimp E6; [now apply keep_ge_block|apply block_refl].
Qed.
Lemma good_block level phase p a p' a' : sorted p -> sorted a ->
  snd (get_good_extrema level phase p a) = Ok (p', a') ->
  block_of p' p /\ block_of a' a /\ sorted p' /\ sorted a'.
Proof.
  intros Sp Sa H. unfold get_good_extrema in H. inv_lbind H. inv_lbind H. inv_lbind H. inv_lbind H.
  apply jumps_block in E; [|exact Sp]. apply jumps_block in E0; [|exact Sa].
  assert (S1 := block_sorted _ _ E Sp). assert (S2 := block_sorted _ _ E0 Sa).
  apply close_block in E1; [|exact S1]. apply close_block in E2; [|exact S2].
  assert (S3 := block_sorted _ _ E1 S1). assert (S4 := block_sorted _ _ E2 S2).
  apply ends_block in H; [|exact S3|exact S4]. destruct H as [H1 H2]. cbn in H1, H2.
  assert (B1 : block_of p' p) by (eapply block_trans; [exact H1|]; eapply block_trans; eauto).
  assert (B2 : block_of a' a) by (eapply block_trans; [exact H2|]; eapply block_trans; eauto).
  repeat split; auto; eapply block_sorted; eauto.
Qed.

(** Summary statements used by the property file. *)
Lemma jumps_end_cut level phase loc f :
  quiet level -> phase_increasing phase -> sorted loc -> Forall (fun i => i < length phase) loc ->
  first_with (jump_up phase loc) f -> (length loc - 2) / 2 < f ->
  exists out, snd (drop_extrema_if_extrema_jumps level phase loc max_ratio) = Ok out /\
    forall k, ~ jump_up phase out k.
Proof.
  intros Hq Hp Hs Hr Hf L. destruct (jumps_spec level phase loc Hq Hp Hs Hr) as [s [e [E [JE _]]]].
  exists (slice loc s e). split; [exact E|].
  destruct JE as [[f' [Hf' [_ He]]]|[N _]]; [|specialize (N f Hf); lia].
  eapply jumps_end_clean; eauto.
Qed.
Lemma jumps_start_cut level phase loc l :
  quiet level -> phase_increasing phase -> sorted loc -> Forall (fun i => i < length phase) loc ->
  last_with (jump_down phase loc) l -> l < (length loc - 2) / 2 ->
  exists out, snd (drop_extrema_if_extrema_jumps level phase loc max_ratio) = Ok out /\
    jump_down phase out 0.
Proof.
  intros Hq Hp Hs Hr Hl L. destruct (jumps_spec level phase loc Hq Hp Hs Hr) as [s [e [E [JE JS]]]].
  exists (slice loc s e). split; [exact E|].
  destruct JS as [[l' [Hl' [_ He]]]|[N _]]; [|specialize (N l Hl); lia].
  rewrite (last_with_unique _ _ _ Hl' Hl) in He. subst s. eapply jumps_start_survives; eauto.
Qed.
Lemma close_end_cut level phase loc m f :
  quiet level -> sorted loc -> Forall (fun i => i < length phase) loc ->
  first_with (close_pair phase loc m) f -> (length loc - 1) / 2 < f ->
  exists out, snd (drop_extrema_if_too_close level phase loc m) = Ok out /\
    forall k, ~ close_pair phase out m k.
Proof.
  intros Hq Hs Hr Hf L. destruct (close_spec level phase loc m Hq Hs Hr) as [s [e [E [JE _]]]].
  exists (slice loc s e). split; [exact E|].
  destruct JE as [[f' [Hf' [_ He]]]|[N _]]; [|specialize (N f Hf); lia].
  eapply close_end_clean; eauto.
Qed.
Lemma close_start_cut level phase loc m l :
  quiet level -> sorted loc -> Forall (fun i => i < length phase) loc ->
  last_with (close_pair phase loc m) l -> l < (length loc - 1) / 2 ->
  exists out, snd (drop_extrema_if_too_close level phase loc m) = Ok out /\ close_pair phase out m 0.
Proof.
  intros Hq Hs Hr Hl L. destruct (close_spec level phase loc m Hq Hs Hr) as [s [e [E [JE JS]]]].
  exists (slice loc s e). split; [exact E|].
  destruct JS as [[l' [Hl' [_ He]]]|[N _]]; [|specialize (N l Hl); lia].
  rewrite (last_with_unique _ _ _ Hl' Hl) in He. subst s. eapply close_start_survives; eauto.
Qed.
Lemma jumps_unchanged level phase loc :
  quiet level -> phase_increasing phase -> sorted loc -> Forall (fun i => i < length phase) loc ->
  (forall k, ~ jump_up phase loc k) -> (forall k, ~ jump_down phase loc k) ->
  snd (drop_extrema_if_extrema_jumps level phase loc max_ratio) = Ok loc.
Proof.
  intros Hq Hp Hs Hr U D. destruct (jumps_spec level phase loc Hq Hp Hs Hr) as [s [e [E [JE JS]]]].
  destruct JE as [[f [[Hf _] _]]|[_ ->]]; [exfalso; eapply U; eauto|].
  destruct JS as [[l [[Hl _] _]]|[_ ->]]; [exfalso; eapply D; eauto|].
  rewrite E, slice_all. reflexivity.
Qed.
Lemma close_unchanged level phase loc m :
  quiet level -> sorted loc -> Forall (fun i => i < length phase) loc ->
  (forall k, ~ close_pair phase loc m k) ->
  snd (drop_extrema_if_too_close level phase loc m) = Ok loc.
Proof.
  intros Hq Hs Hr U. destruct (close_spec level phase loc m Hq Hs Hr) as [s [e [E [JE JS]]]].
  destruct JE as [[f [[Hf _] _]]|[_ ->]]; [exfalso; eapply U; eauto|].
  destruct JS as [[l [[Hl _] _]]|[_ ->]]; [exfalso; eapply U; eauto|].
  rewrite E, slice_all. reflexivity.
Qed.
Lemma apo_spec p : sorted p ->
  let a := get_apocenters_from_pericenters p in
  length a = length p - 1 /\ sorted a /\
  forall k m x y, nth_error a k = Some m -> nth_error p k = Some x -> nth_error p (S k) = Some y ->
    x <= m /\ m < y /\ (x + 1 < y -> x < m) /\ (2 * m = x + y \/ 2 * m + 1 = x + y).
Proof.
  intros Hs. split; [apply apo_length|]. split; [now apply apo_sorted|]. now apply apo_between.
Qed.
