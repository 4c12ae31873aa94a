(** Unknown keys of the waveform dictionary. *)
From Verif Require Import Base BaseLemmas UtilsModel UtilsSpec UtilsLemmas ExtremaModel ExtremaLemmas RationalModel MeasureModel MeasureSpec LevelLemmas
  SegmentModel DataModel DataSpec DataLemmas DataLemmas2 InitModel InitSpec InitLemmas InitSame.
Open Scope string_scope.
Open Scope nat_scope.

Definition unknown_msg : string := "not a recognized key word in dataDict".
Lemma known_iff k : existsb (String.eqb k) recognized_keys = true <-> In k known_keys.
Proof.
  rewrite existsb_exists. split.
  - intros (x & H & E). apply String.eqb_eq in E. now subst.
  - intros H. exists k. split; [exact H|apply String.eqb_refl].
Qed.
Lemma warn_strict keys : snd (warn_unknown 2 keys) = Ok tt -> forall k, In k keys -> In k known_keys.
Proof.
  induction keys as [|x keys IH]; intros H k Hk; [destruct Hk|]. cbn [warn_unknown] in H. destruct (existsb _ _) eqn:E.
  - rewrite (lbind_val _ _ tt) in H by reflexivity. destruct Hk as [-> |Hk]; [now apply known_iff|]. apply IH; [|exact Hk]. exact H.
  - discriminate H.
Qed.
Lemma warn_loud keys k : In k keys -> ~ In k known_keys -> In unknown_msg (fst (warn_unknown 1 keys)).
Proof.
  induction keys as [|x keys IH]; intros Hk Hn; [destruct Hk|]. cbn [warn_unknown].
  destruct (existsb _ _) eqn:E.
  - destruct Hk as [-> |Hk]; [apply known_iff in E; contradiction|]. specialize (IH Hk Hn). unfold lbind, lret. cbn. destruct (warn_unknown 1 keys). exact IH.
  - unfold lbind, dbg. cbn. destruct (warn_unknown 1 keys). cbn. left. reflexivity.
Qed.
Lemma warn_none level keys : (forall k, In k keys -> In k known_keys) -> warn_unknown level keys = lret tt.
Proof.
  induction keys as [|x keys IH]; intros H; [reflexivity|]. cbn [warn_unknown].
  assert (E : existsb (String.eqb x) recognized_keys = true) by (apply known_iff, H; now left). rewrite E.
  rewrite IH by (intros; apply H; now right). reflexivity.
Qed.
Section S.
  Context {C V : Type} (L : library C V).
  Lemma keys_strict m a p (w w' : world C) l d user k : measure_eccentricity L m a p w = (w', (l, Ok d)) -> a_level a = 2%Z ->
    is_dict (wd_heap w') p user -> has user k -> In k known_keys.
  Proof.
    intros H Hl Hu Hk. apply measure_ok in H. destruct H as (_ & o & s & r & l1 & l2 & H & _). apply build_method in H.
    destruct H as (_ & w1 & l3 & H & <-). apply init_ok in H.
    destruct H as (rf & pd & t & gw & fl & extra & ek & n & wv & op & u & rs & m1 & m2 & h' & _ & _ & _ & _ & _ & _ & _ & Hh & _ & _ & _ & _ & D & Wn & _).
    rewrite Hh in Hu. assert (u = user) by (unfold is_dict in *; congruence). subst u. rewrite Hl in Wn. eapply warn_strict; eauto.
  Qed.
  Lemma keys_warned m a p (w w' : world C) l d user k : measure_eccentricity L m a p w = (w', (l, Ok d)) -> a_level a = 1%Z ->
    is_dict (wd_heap w') p user -> has user k -> ~ In k known_keys -> In unknown_msg l.
  Proof.
    intros H Hl Hu Hk Hn. apply measure_ok in H. destruct H as (_ & o & s & r & l1 & l2 & H & _ & _ & -> & _). 
    unfold build in H. apply wbind_ok in H. destruct H as (w1 & k1 & k2 & b & H & H2 & ->).
    assert (Hw : wd_heap w' = wd_heap w1).
    { cbv zeta in H2. revert H2. set (X := if String.eqb m "Amplitude" then _ else _). intros H2.
      assert (P : heap_kept X).
      { subst X. repeat (destruct (String.eqb m _); [repeat (apply kept_bind; [|intros]); intros x; reflexivity|]).
        repeat (apply kept_bind; [|intros]); intros x; reflexivity. }
      specialize (P w1). rewrite H2 in P. exact P. }
    apply init_ok in H.
    destruct H as (rf & pd & t & gw & fl & extra & ek & n & wv & op & u & rs & m1 & m2 & h' & _ & _ & _ & _ & _ & _ & _ & Hh & _ & _ & _ & _ & D & _ & _ & _ & ->).
    rewrite Hw, Hh in Hu. assert (u = user) by (unfold is_dict in *; congruence). subst u.
    apply in_or_app. left. apply in_or_app. left. apply in_or_app. right. apply in_or_app. right. apply in_or_app. right.
    rewrite Hl. eapply warn_loud; eauto.
  Qed.
End S.
