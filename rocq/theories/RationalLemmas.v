(** Proofs about the choice of degrees and the iteration of the rational fit. *)
From Verif Require Import Base BaseLemmas UtilsModel RationalModel RationalSpec ExtremaSpec ExtremaLemmas.
Open Scope Z_scope.

Lemma under_iff d N : is_underdetermined d N = true <-> N <= fst d + snd d + 1.
Proof. unfold is_underdetermined. apply Z.leb_le. Qed.
Lemma under_false d N : is_underdetermined d N = false <-> fst d + snd d + 1 < N.
Proof. unfold is_underdetermined. rewrite Z.leb_gt. lia. Qed.

(** ** get_reduced_degrees *)
Definition balanced (flag : bool) (m n m' n' : Z) : Prop :=
  if flag then n - n' = m - m' \/ n - n' = m - m' + 1
  else m - m' = n - n' \/ m - m' = n - n' + 1.
Lemma reduce_loop_spec : forall fuel m n (b : bool) N,
  (Z.to_nat (2 * (Z.max 0 m + Z.max 0 n) + (if b then 1 else 2)) <= fuel)%nat -> 0 <= m -> 0 <= n ->
  (N <= 1 /\ reduce_loop fuel m n b N = Err ValueError) \/
  (1 < N /\ exists m' n', reduce_loop fuel m n b N = Ok (m', n') /\ 0 <= m' <= m /\ 0 <= n' <= n /\
     m' + n' + 1 < N /\ (m + n + 1 < N -> m' = m /\ n' = n) /\ (N <= m + n + 1 -> m' + n' + 2 = N) /\
     (0 < m' -> 0 < n' -> balanced b m n m' n')).
Proof.
  induction fuel as [|k IH]; intros m n b N Hf Hm Hn; [destruct b; lia|].
  cbn [reduce_loop].
  destruct (is_underdetermined (m, n) N) eqn:U.
  - apply under_iff in U. cbn [fst snd] in U.
    destruct (Z.leb_spec m 0) as [M|M]; destruct (Z.leb_spec n 0) as [L|L]; cbn [andb].
    + left. split; [lia|reflexivity].
    + (* m = 0 *)
      assert (m = 0) by lia. subst m. destruct b; cbn [andb negb].
      * rewrite (proj2 (Z.ltb_lt 0 n) L).
        destruct (IH 0 (n - 1) false N) as [[A B]|[A [m' [n' [E [B1 [B2 [B3 [B4 [B5 B6]]]]]]]]]]; try lia;
          [left; auto|right; split; [exact A|]]. exists m', n'. repeat split; auto; try lia.
      * cbn [Z.ltb]. change (0 <? 0) with false. cbv iota.
        destruct (IH 0 n true N) as [[A B]|[A [m' [n' [E [B1 [B2 [B3 [B4 [B5 B6]]]]]]]]]]; try lia;
          [left; auto|right; split; [exact A|]]. exists m', n'. repeat split; auto; try lia.
    + assert (n = 0) by lia. subst n. change (0 <? 0) with false. rewrite andb_false_r.
      rewrite (proj2 (Z.ltb_lt 0 m) M).
      destruct (IH (m - 1) 0 (negb b) N) as [[A B]|[A [m' [n' [E [B1 [B2 [B3 [B4 [B5 B6]]]]]]]]]];
        try (destruct b; cbn [negb]; lia); [left; auto|right; split; [exact A|]].
      exists m', n'. repeat split; auto; try lia.
    + destruct b; cbn [andb negb].
      * rewrite (proj2 (Z.ltb_lt 0 n) L).
        destruct (IH m (n - 1) false N) as [[A B]|[A [m' [n' [E [B1 [B2 [B3 [B4 [B5 B6]]]]]]]]]]; try lia;
          [left; auto|right; split; [exact A|]]. exists m', n'. repeat split; auto; try lia.
        intros P1 P2. specialize (B6 P1 P2). cbn in *. lia.
      * rewrite (proj2 (Z.ltb_lt 0 m) M).
        destruct (IH (m - 1) n true N) as [[A B]|[A [m' [n' [E [B1 [B2 [B3 [B4 [B5 B6]]]]]]]]]]; try lia;
          [left; auto|right; split; [exact A|]]. exists m', n'. repeat split; auto; try lia.
        intros P1 P2. specialize (B6 P1 P2). cbn in *. lia.
  - apply under_false in U. cbn [fst snd] in U. right. split; [lia|].
    exists m, n. repeat split; auto; try lia. intros _ _. destruct b; cbn; lia.
Qed.
Lemma reduce_spec m n N : 0 <= m -> 0 <= n ->
  (N <= 1 /\ get_reduced_degrees (m, n) N = Err ValueError) \/
  (1 < N /\ exists m' n', get_reduced_degrees (m, n) N = Ok (m', n') /\ 0 <= m' <= m /\ 0 <= n' <= n /\
     m' + n' + 1 < N /\ (m + n + 1 < N -> m' = m /\ n' = n) /\ (N <= m + n + 1 -> m' + n' + 2 = N) /\
     (0 < m' -> 0 < n' -> n - n' = m - m' \/ n - n' = m - m' + 1)).
Proof.
  intros Hm Hn. unfold get_reduced_degrees. cbn [fst snd].
  apply (reduce_loop_spec _ m n true N); auto. unfold reduce_fuel. lia.
Qed.
(** The loop terminates for all integer degrees, also negative ones. *)
Lemma reduce_loop_fuel : forall fuel m n (b : bool) N,
  (Z.to_nat (2 * (Z.max 0 m + Z.max 0 n) + (if b then 1 else 2)) <= fuel)%nat ->
  reduce_loop fuel m n b N <> Err OutOfFuel.
Proof.
  induction fuel as [|k IH]; intros m n b N Hf; [destruct b; lia|].
  cbn [reduce_loop]. destruct (is_underdetermined (m, n) N); [|discriminate].
  destruct (Z.leb_spec m 0) as [M|M]; destruct (Z.leb_spec n 0) as [L|L]; cbn [andb]; [discriminate| | |];
    destruct b; cbn [andb negb];
    repeat match goal with |- context [?a <? ?b] => destruct (Z.ltb_spec a b) end; try lia; apply IH; lia.
Qed.
Lemma reduce_terminates d N : get_reduced_degrees d N <> Err OutOfFuel.
Proof. unfold get_reduced_degrees. apply reduce_loop_fuel. unfold reduce_fuel. lia. Qed.

(** ** RationalFit.fit *)
Section FitLemmas.
  Context {W A : Type}.
  Variable step : W -> res (A * list Q * W).
  Variable norm : list Q -> Q.
  Variable y : list Q.
  Lemma min_entry_spec (l : list (hist_entry A)) : forall b,
    let m := min_entry b l in
    In m (b :: l) /\ (forall e, In e (b :: l) -> (h_res m <= h_res e)%Q) /\
    exists pre post, b :: l = (pre ++ m :: post)%list /\ forall e, In e pre -> (h_res m < h_res e)%Q.
  Proof.
    induction l as [|a l IH]; intros b m; subst m; cbn [min_entry].
    - repeat split; [left; auto|intros e [->|[]]; apply Qle_refl|].
      exists [], []. split; [reflexivity|]. intros e [].
    - destruct (Qlt_bool (h_res a) (h_res b)) eqn:E.
      + apply Qlt_bool_iff in E. destruct (IH a) as [H1 [H2 [pre [post [H3 H4]]]]].
        assert (La : (h_res (min_entry a l) <= h_res a)%Q) by (apply H2; left; auto).
        repeat split.
        * right. exact H1.
        * intros e [->|He]; [lra|]. apply H2. exact He.
        * exists (b :: pre), post. split; [cbn; now rewrite <- H3|].
          intros e [->|He]; [lra|auto].
      + apply Qlt_bool_false in E. destruct (IH b) as [H1 [H2 [pre [post [H3 H4]]]]].
        assert (Lb : (h_res (min_entry b l) <= h_res b)%Q) by (apply H2; left; auto).
        repeat split.
        * destruct H1 as [H1|H1]; [left; auto|right; right; auto].
        * intros e [->|[->|He]]; [exact Lb|lra|]. apply H2. right. exact He.
        * destruct pre as [|p pre].
          -- cbn in H3. exists [], (a :: post). injection H3 as H3 H3'. split; [cbn; congruence|intros e []].
          -- cbn in H3. injection H3 as -> H3. exists (p :: a :: pre), post. split; [cbn; congruence|].
             intros e [->|[->|He]].
             ++ apply H4. left. reflexivity.
             ++ assert (h_res (min_entry p l) < h_res p)%Q by (apply H4; left; reflexivity). lra.
             ++ apply H4. right. exact He.
  Qed.
  (** all entries but the last have not converged *)
  Definition unconverged (tol : Q) (h : list (hist_entry A)) : Prop :=
    forall e, In e (removelast h) -> (tol <= h_delta e)%Q.
  Lemma fit_loop_spec : forall iters q old tol h0 h,
    fit_loop step norm y iters q old tol h0 = Ok h -> (forall e, In e h0 -> (tol <= h_delta e)%Q) ->
    (length h <= length h0 + iters)%nat /\ unconverged tol h /\ (exists t, h = (h0 ++ t)%list) /\
    ((length h < length h0 + iters)%nat ->
       (exists h' e, h = (h' ++ [e])%list /\ (h_delta e < tol)%Q) \/ (exists q', step q' = Err LinAlgError)).
  Proof.
    assert (U : forall tol (h : list (hist_entry A)), (forall e, In e h -> (tol <= h_delta e)%Q) -> unconverged tol h).
    { intros tol h H e He. apply H. destruct h as [|a h]; [destruct He|].
      rewrite (app_removelast_last a (l := a :: h)) by discriminate. apply in_or_app. auto. }
    induction iters as [|k IH]; intros q old tol h0 h H Hu; cbn [fit_loop] in H.
    - apply Ok_inj in H. subst h. repeat split; [lia|now apply U|exists []; now rewrite app_nil_r|lia].
    - destruct (step q) as [[[a r] q']|e] eqn:Es.
      + match type of H with context [(h0 ++ [?x])%list] => set (e := x) in * end.
        destruct (Qlt_bool (h_delta e) tol) eqn:D.
        * apply Ok_inj in H. subst h. rewrite app_length. cbn [length]. repeat split; [lia| |exists [e]; auto|].
          -- intros x Hx. rewrite removelast_last in Hx. auto.
          -- intros _. left. exists h0, e. split; [reflexivity|]. now apply Qlt_bool_iff.
        * apply Qlt_bool_false in D. apply IH in H.
          2:{ intros x Hx. apply in_app_or in Hx. destruct Hx as [Hx|[<-|[]]]; auto. }
          rewrite app_length in H. cbn [length] in H. destruct H as [H1 [H2 [[t ->] H4]]].
          repeat split; [lia|exact H2|exists ([e] ++ t)%list; now rewrite app_assoc|].
          intros L. apply H4. lia.
      + destruct e; try discriminate. apply Ok_inj in H. subst h.
        repeat split; [lia|now apply U|exists []; now rewrite app_nil_r|]. intros _. right. now exists q.
  Qed.
  Lemma fit_spec q0 iters tol best h : fit step norm y q0 iters tol = Ok (best, h) ->
    In best h /\ (forall e, In e h -> (h_res best <= h_res e)%Q) /\
    (exists pre post, h = (pre ++ best :: post)%list /\ forall e, In e pre -> (h_res best < h_res e)%Q) /\
    (1 <= length h <= iters)%nat /\
    (forall e, In e (removelast h) -> (tol <= h_delta e)%Q) /\
    ((length h < iters)%nat ->
       (exists h' e, h = (h' ++ [e])%list /\ (h_delta e < tol)%Q) \/ (exists q', step q' = Err LinAlgError)).
  Proof.
    unfold fit. intros H. inv_bind H. apply fit_loop_spec in E; [|intros e []].
    destruct E as [E1 [E2 [_ E4]]]. destruct v as [|e r]; [discriminate|].
    apply Ok_inj in H. injection H as <- <-.
    destruct (min_entry_spec r e) as [M1 [M2 M3]]. cbn [length] in *.
    repeat split; auto; try lia.
  Qed.
  Lemma fit_empty q0 iters tol :
    (iters = 0%nat \/ step q0 = Err LinAlgError) -> fit step norm y q0 iters tol = Err ValueError.
  Proof.
    unfold fit. intros [->|E]; [reflexivity|]. destruct iters; cbn [fit_loop]; [reflexivity|].
    rewrite E. reflexivity.
  Qed.
  Lemma fit_loop_grows : forall iters q old tol h0 h,
    fit_loop step norm y iters q old tol h0 = Ok h -> exists t, h = (h0 ++ t)%list.
  Proof.
    induction iters as [|k IH]; intros q old tol h0 h H; cbn [fit_loop] in H.
    - apply Ok_inj in H. subst. exists []. now rewrite app_nil_r.
    - destruct (step q) as [[[a r] q']|[]]; try discriminate.
      + destruct (Qlt_bool _ _).
        * apply Ok_inj in H. subst. eexists. reflexivity.
        * apply IH in H. destruct H as [t ->]. rewrite <- app_assoc. eexists. reflexivity.
      + apply Ok_inj in H. subst. exists []. now rewrite app_nil_r.
  Qed.
  Lemma fit_value_error q0 iters tol :
    (forall q, step q <> Err ValueError) ->
    (fit step norm y q0 iters tol = Err ValueError <-> iters = 0%nat \/ step q0 = Err LinAlgError).
  Proof.
    intros NV. split; [|apply fit_empty]. unfold fit. intros H.
    destruct (fit_loop step norm y iters q0 (map (fun _ => 0%Q) y) tol []) as [h|e] eqn:E; cbn [bind] in H.
    - destruct h as [|x h]; [|discriminate]. destruct iters as [|k]; [left; reflexivity|right].
      cbn [fit_loop] in E. destruct (step q0) as [[[a r] q']|[]]; try discriminate; [|reflexivity].
      exfalso. destruct (Qlt_bool _ _); [discriminate|]. apply fit_loop_grows in E. destruct E as [t E].
      destruct t; discriminate.
    - injection H as ->. exfalso. revert E. generalize (@nil (hist_entry A)), (map (fun _ : Q => 0%Q) y), q0.
      induction iters as [|k IH]; intros h0 old q E; cbn [fit_loop] in E; [discriminate|].
      destruct (step q) as [[[a r] q']|e] eqn:Es.
      + destruct (Qlt_bool _ _); [discriminate|]. eapply IH; eauto.
      + destruct e; try discriminate. exact (NV q Es).
  Qed.
End FitLemmas.

(** ** adaptive degree search *)
Section AdaptiveLemmas.
  Context {F : Type}.
  Variable fit_for : Z * Z -> res F.
  Variable nonmono : F -> res bool.
  Variable spline_fit : res F.
  Variable N : Z.
  Definition truthful (h : history) : Prop :=
    forall d b, In (d, b) h -> exists f, fit_for d = Ok f /\ nonmono f = Ok b.
  Definition determined (d : Z * Z) : Prop := fst d + snd d + 1 < N.

  Lemma truthful_app h d b f : truthful h -> fit_for d = Ok f -> nonmono f = Ok b -> truthful (h ++ [(d, b)])%list.
  Proof.
    intros H1 H2 H3 d' b' H. apply in_app_or in H. destruct H as [H|[H|[]]]; [auto|].
    injection H as <- <-. exists f. auto.
  Qed.
  Definition all_nonmono (h : history) : Prop := forall p, In p h -> snd p = true.
  Lemma all_nonmono_app h d : all_nonmono h -> all_nonmono (h ++ [(d, true)])%list.
  Proof. intros H p Hp. apply in_app_or in Hp. destruct Hp as [Hp|[<-|[]]]; auto. Qed.

  Hypothesis fit_nonneg : forall d f, fit_for d = Ok f -> 0 <= fst d /\ 0 <= snd d.

  Lemma lower_ok : forall fuel level d h r,
    snd (lower_loop fit_for nonmono spline_fit fuel level d h) = Ok r ->
    truthful h -> determined d -> all_nonmono h -> In (d, true) h ->
    truthful (sr_history r) /\
    match sr_degrees r with
    | Some d' => fit_for d' = Ok (sr_fit r) /\ nonmono (sr_fit r) = Ok false /\ determined d' /\
                 exists h', sr_history r = (h' ++ [(d', false)])%list /\ all_nonmono h' /\
                            exists t, h' = (h ++ t)%list
    | None => spline_fit = Ok (sr_fit r) /\ all_nonmono (sr_history r) /\
              (exists t, sr_history r = (h ++ t)%list) /\
              (exists d', In (d', true) (sr_history r) /\ fst d' <= 1 /\ snd d' <= 1)
    end.
  Proof.
    induction fuel as [|k IH]; intros level d h r H T D P I; [discriminate|].
    cbn [lower_loop] in H.
    destruct ((fst d <=? 1) && (snd d <=? 1)) eqn:AB.
    { apply andb_true_iff in AB. destruct AB as [A B]. apply Z.leb_le in A, B.
      inv_lbind H. inv_lbind H. cbn [lift snd] in E0. cbn [lret snd] in H. apply Ok_inj in H. subst r. cbn.
      split; [exact T|]. split; [exact E0|]. split; [exact P|].
      split; [exists []; now rewrite app_nil_r|]. exists d. auto. }
    assert (AB' : 1 < fst d \/ 1 < snd d).
    { apply andb_false_iff in AB. rewrite !Z.leb_gt in AB. lia. }
    set (dn := (Z.max (fst d - 1) 1, Z.max (snd d - 1) 1)) in *.
    destruct (T d true I) as [f0 [Ef0 _]]. apply fit_nonneg in Ef0.
    assert (D' : determined dn) by (unfold determined, dn in *; cbn [fst snd]; lia).
    inv_lbind H. inv_lbind H. inv_lbind H. cbn [lift snd] in E0, E1.
    assert (T' : truthful (h ++ [(dn, v1)])%list) by (eapply truthful_app; eauto).
    destruct v1.
    - apply IH in H; auto; [|now apply all_nonmono_app|apply in_or_app; right; left; reflexivity].
      destruct H as [H1 H2]. split; [exact H1|]. destruct (sr_degrees r) as [d'|].
      + destruct H2 as [H2 [H3 [H4 [h' [H5 [H6 [t H7]]]]]]]. repeat split; auto.
        exists h'. repeat split; auto. exists ([(dn, true)] ++ t)%list. now rewrite app_assoc.
      + destruct H2 as [H2 [H3 [[t H4] H5]]]. repeat split; auto.
        exists ([(dn, true)] ++ t)%list. now rewrite app_assoc.
    - cbn [lret snd] in H. apply Ok_inj in H. subst r. cbn. split; [exact T'|].
      repeat split; auto. exists h. repeat split; auto. exists []. now rewrite app_nil_r.
  Qed.

  Lemma lower_fuel : forall fuel level d h, (Z.to_nat (Z.max 1 (Z.max (fst d) (snd d))) <= fuel)%nat ->
    snd (lower_loop fit_for nonmono spline_fit fuel level d h) = Err OutOfFuel ->
    spline_fit = Err OutOfFuel \/ (exists d, fit_for d = Err OutOfFuel) \/ (exists f, nonmono f = Err OutOfFuel).
  Proof using.
    assert (DB : forall msg level imp, snd (dbg msg level imp) <> Err OutOfFuel).
    { exact dbg_no_fuel. }
    induction fuel as [|k IH]; intros level d h Hf H; [lia|].
    cbn [lower_loop] in H.
    destruct ((fst d <=? 1) && (snd d <=? 1)) eqn:AB.
    - unfold lbind at 1 in H. destruct (snd (dbg _ _ _)) eqn:E; [cbn [snd] in H|exfalso; cbn in H; injection H as ->; exact (DB _ _ _ E)].
      unfold lbind, lift in H. cbn [snd] in H. destruct spline_fit; cbn in H; [discriminate|left; congruence].
    - assert (AB' : 1 < fst d \/ 1 < snd d).
      { apply andb_false_iff in AB. rewrite !Z.leb_gt in AB. lia. }
      set (dn := (Z.max (fst d - 1) 1, Z.max (snd d - 1) 1)) in *.
      unfold lbind at 1 in H. destruct (snd (dbg _ _ _)) eqn:E; [cbn [snd] in H|exfalso; cbn in H; injection H as ->; exact (DB _ _ _ E)].
      unfold lbind at 1 in H. cbn [lift snd] in H. destruct (fit_for dn) as [f|e] eqn:Ef; cbn [snd] in H;
        [|right; left; exists dn; congruence].
      unfold lbind at 1 in H. cbn [lift snd] in H. destruct (nonmono f) as [b|e] eqn:En; cbn [snd] in H;
        [|right; right; exists f; congruence].
      destruct b; [|cbn in H; discriminate]. apply IH in H; [exact H|]. unfold dn. cbn [fst snd]. lia.
  Qed.

  Lemma raise_ok : forall fuel level d last h r,
    snd (raise_loop fit_for nonmono N fuel level d last h) = Ok r ->
    truthful h -> determined d -> fit_for d = Ok last -> nonmono last = Ok false ->
    truthful (sr_history r) /\
    exists d', sr_degrees r = Some d' /\ fit_for d' = Ok (sr_fit r) /\ nonmono (sr_fit r) = Ok false /\
      determined d' /\
      (~ determined (fst d' + 1, snd d' + 1) \/ In ((fst d' + 1, snd d' + 1), true) (sr_history r)) /\
      (exists k, 0 <= k /\ d' = (fst d + k, snd d + k)) /\ exists t, sr_history r = (h ++ t)%list.
  Proof.
    induction fuel as [|k IH]; intros level d last h r H T D Hf Hm; [discriminate|].
    cbn [raise_loop] in H. set (dn := (fst d + 1, snd d + 1)) in *.
    destruct (is_underdetermined dn N) eqn:U.
    - apply under_iff in U. cbn [lret snd] in H. apply Ok_inj in H. subst r. cbn. split; [exact T|].
      exists d. repeat split; auto; [left; unfold determined; cbn in *; lia|exists 0|exists []; now rewrite app_nil_r].
      split; [lia|]. destruct d. cbn. f_equal; lia.
    - apply under_false in U. inv_lbind H. inv_lbind H. cbn [lift snd] in E, E0.
      assert (T' : truthful (h ++ [(dn, v0)])%list) by (eapply truthful_app; eauto).
      destruct v0.
      + inv_lbind H. cbn [lret snd] in H. apply Ok_inj in H. subst r. cbn. split; [exact T'|].
        exists d. repeat split; auto.
        * right. apply in_or_app. right. left. reflexivity.
        * exists 0. split; [lia|]. destruct d. cbn. f_equal; lia.
        * eexists. reflexivity.
      + apply IH in H; auto. destruct H as [H1 [d' [H2 [H3 [H4 [H5 [H6 [[j [H7 H8]] [t H9]]]]]]]]].
        split; [exact H1|]. exists d'. repeat split; auto.
        * exists (j + 1). split; [lia|]. rewrite H8. unfold dn. cbn. f_equal; lia.
        * exists ([(dn, false)] ++ t)%list. now rewrite app_assoc.
  Qed.
  Lemma raise_fuel : forall fuel level d last h, (Z.to_nat (N - fst d - snd d) <= fuel)%nat -> (0 < fuel)%nat ->
    snd (raise_loop fit_for nonmono N fuel level d last h) = Err OutOfFuel ->
    (exists d, fit_for d = Err OutOfFuel) \/ (exists f, nonmono f = Err OutOfFuel).
  Proof.
    assert (DB : forall msg level imp, snd (dbg msg level imp) <> Err OutOfFuel).
    { exact dbg_no_fuel. }
    induction fuel as [|k IH]; intros level d last h Hf Hp H; [lia|].
    cbn [raise_loop] in H. set (dn := (fst d + 1, snd d + 1)) in *.
    destruct (is_underdetermined dn N) eqn:U; [discriminate|].
    apply under_false in U. cbn [fst snd dn] in U.
    unfold lbind at 1 in H. cbn [lift snd] in H. destruct (fit_for dn) as [f|e] eqn:Ef; cbn [snd] in H;
      [|left; exists dn; congruence].
    unfold lbind at 1 in H. cbn [lift snd] in H. destruct (nonmono f) as [b|e] eqn:En; cbn [snd] in H;
      [|right; exists f; congruence].
    destruct b.
    - unfold lbind in H. destruct (snd (dbg _ _ _)) eqn:E; [discriminate|exfalso; cbn in H; injection H as ->; exact (DB _ _ _ E)].
    - apply IH in H; [exact H| |]; unfold dn; cbn [fst snd]; lia.
  Qed.

  Lemma reduce_determined : forall fuel m n b d, reduce_loop fuel m n b N = Ok d -> determined d.
  Proof using.
    induction fuel as [|k IH]; intros m n b d H; [discriminate|].
    cbn [reduce_loop] in H. destruct (is_underdetermined (m, n) N) eqn:U.
    - destruct ((m <=? 0) && (n <=? 0)); [discriminate|].
      destruct (b && (0 <? n)); [eauto|]. destruct (0 <? m); eauto.
    - apply Ok_inj in H. subst. now apply under_false.
  Qed.
  Lemma start_ok user np na d : start_degrees N user np na = Ok d -> determined d.
  Proof using.
    unfold start_degrees. set (d0 := match user with Some d => d | None => _ end).
    destruct (is_underdetermined d0 N) eqn:U; [|intros H; apply Ok_inj in H; subst; now apply under_false].
    apply reduce_determined.
  Qed.

  Lemma adaptive_ok level user np na r :
    snd (adaptive_search fit_for nonmono spline_fit N level user np na) = Ok r ->
    truthful (sr_history r) /\
    match sr_degrees r with
    | Some d => fit_for d = Ok (sr_fit r) /\ nonmono (sr_fit r) = Ok false /\ determined d /\
        (In ((fst d + 1, snd d + 1), true) (sr_history r) \/ ~ determined (fst d + 1, snd d + 1) \/
         exists h', sr_history r = (h' ++ [(d, false)])%list /\ h' <> [] /\ all_nonmono h')
    | None => spline_fit = Ok (sr_fit r) /\ all_nonmono (sr_history r) /\
              exists d, In (d, true) (sr_history r) /\ fst d <= 1 /\ snd d <= 1
    end.
  Proof.
    intros H. unfold adaptive_search in H. inv_lbind H. inv_lbind H. inv_lbind H. cbn [lift snd] in E, E0, E1.
    apply start_ok in E.
    assert (T : truthful [(v, v1)]) by (apply (truthful_app [] v v1 v0); auto; intros d b []).
    destruct v1.
    - apply lower_ok in H; auto; [|intros p [<-|[]]; reflexivity|left; reflexivity].
      destruct H as [H1 H2]. split; [exact H1|]. destruct (sr_degrees r) as [d|].
      + destruct H2 as [H2 [H3 [H4 [h' [H5 [H6 [t H7]]]]]]]. repeat split; auto. right. right.
        exists h'. repeat split; auto. rewrite H7. discriminate.
      + destruct H2 as [H2 [H3 [_ H5]]]. auto.
    - apply raise_ok in H; auto. destruct H as [H1 [d [H2 [H3 [H4 [H5 [H6 _]]]]]]]. split; [exact H1|].
      rewrite H2. repeat split; auto. tauto.
  Qed.
  Lemma adaptive_fuel level user np na : 0 <= N ->
    snd (adaptive_search fit_for nonmono spline_fit N level user np na) = Err OutOfFuel ->
    spline_fit = Err OutOfFuel \/ (exists d, fit_for d = Err OutOfFuel) \/ (exists f, nonmono f = Err OutOfFuel).
  Proof.
    intros HN H. unfold adaptive_search in H.
    unfold lbind at 1 in H. cbn [lift snd] in H.
    destruct (start_degrees N user np na) as [d|e] eqn:Es; cbn [snd] in H.
    2:{ exfalso. unfold start_degrees in Es. destruct (is_underdetermined _ N); [|discriminate].
        injection H as ->; exact (reduce_terminates _ _ Es). }
    unfold lbind at 1 in H. cbn [lift snd] in H. destruct (fit_for d) as [f|e] eqn:Ef; cbn [snd] in H;
      [|right; left; exists d; congruence].
    unfold lbind at 1 in H. cbn [lift snd] in H. destruct (nonmono f) as [b|e] eqn:En; cbn [snd] in H;
      [|right; right; exists f; congruence].
    destruct b.
    - eapply lower_fuel; [|exact H]. lia.
    - right. apply fit_nonneg in Ef. eapply raise_fuel; [| |exact H]; lia.
  Qed.
End AdaptiveLemmas.

Lemma rational_fit_nonneg {F} (rfit : list Q -> list Q -> Z * Z -> res F) x y d f :
  get_rational_fit rfit x y d = Ok f -> 0 <= fst d /\ 0 <= snd d.
Proof.
  unfold get_rational_fit, rational_init. intros H.
  destruct (negb _); [discriminate|]. destruct (Z.ltb_spec (fst d) 0); [discriminate|].
  destruct (Z.ltb_spec (snd d) 0); [discriminate|]. lia.
Qed.
Lemma search_ok {F} (rfit : list Q -> list Q -> Z * Z -> res F) nonmono spline_fit x y level user np na r :
  let fit_for := get_rational_fit rfit x y in
  let N := Z.of_nat (length x) in
  snd (adaptive_search fit_for nonmono spline_fit N level user np na) = Ok r ->
  truthful_record fit_for nonmono (sr_history r) /\
  match sr_degrees r with
  | Some d => fit_for d = Ok (sr_fit r) /\ nonmono (sr_fit r) = Ok false /\ well_determined N d /\
      (In ((fst d + 1, snd d + 1), true) (sr_history r) \/ ~ well_determined N (fst d + 1, snd d + 1) \/
       exists h', sr_history r = (h' ++ [(d, false)])%list /\ h' <> [] /\ all_flagged h')
  | None => spline_fit = Ok (sr_fit r) /\ all_flagged (sr_history r) /\
            exists d, In (d, true) (sr_history r) /\ fst d <= 1 /\ snd d <= 1
  end.
Proof. intros fit_for N. apply adaptive_ok. apply rational_fit_nonneg. Qed.
Lemma search_terminates {F} (rfit : list Q -> list Q -> Z * Z -> res F) nonmono spline_fit x y level user np na :
  spline_fit <> Err OutOfFuel -> (forall d, rfit x y d <> Err OutOfFuel) -> (forall f, nonmono f <> Err OutOfFuel) ->
  snd (adaptive_search (get_rational_fit rfit x y) nonmono spline_fit (Z.of_nat (length x)) level user np na)
    <> Err OutOfFuel.
Proof.
  intros H1 H2 H3 H. apply adaptive_fuel in H; [|apply rational_fit_nonneg|lia].
  destruct H as [H|[[d H]|[f H]]]; [auto| |eapply H3; eauto].
  unfold get_rational_fit in H. destruct (rational_init x y d) as [u|e] eqn:E; cbn [bind] in H; [eapply H2; eauto|].
  unfold rational_init in E. destruct (negb _) in E; [congruence|]. destruct (_ || _) in E; congruence.
Qed.
