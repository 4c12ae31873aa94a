(** Debug levels: the outcome of measure_eccentricity does not depend on the debug level. *)
From Verif Require Import Base BaseLemmas UtilsModel UtilsSpec UtilsLemmas ExtremaModel ExtremaSpec RationalModel MeasureModel MeasureSpec LevelLemmas
  SegmentModel SegmentSpec SegmentLemmas DataModel DataSpec DataLemmas DataLemmas2 InitModel InitSpec InitLemmas.
Open Scope string_scope.
Open Scope nat_scope.

Section Generic.
  Context {S : Type}.
  (** a computation on states S; the state and the result, without the messages *)
  Definition T (A : Type) := S -> S * lg A.
  Definition res_of {A} (m : T A) (s : S) : S * res A := (fst (m s), snd (snd (m s))).
  Definition tbind {A B} (m : T A) (k : A -> T B) : T B := fun s =>
    let x := m s in
    match snd (snd x) with
    | Ok a => let y := k a (fst x) in (fst y, ((fst (snd x) ++ fst (snd y))%list, snd (snd y)))
    | Err e => (fst x, (fst (snd x), Err e))
    end.
  Definition tni {A} (c : Z -> T A) : Prop := forall l s,
    (quiet l -> res_of (c l) s = res_of (c 0%Z) s) /\ (forall s' v, res_of (c l) s = (s', Ok v) -> res_of (c 0%Z) s = (s', Ok v)).
  Lemma res_tbind {A B} (m : T A) (k : A -> T B) s :
    res_of (tbind m k) s = match res_of m s with (s1, Ok a) => res_of (k a) s1 | (s1, Err e) => (s1, Err e) end.
  Proof. unfold res_of, tbind. destruct (m s) as [s1 [w [a|e]]]; reflexivity. Qed.
  Lemma tni_const {A} (x : T A) : tni (fun _ => x).
  Proof. intros l s. auto. Qed.
  Lemma tni_log {A} (c : Z -> lg A) : lni c -> tni (fun l s => (s, c l)).
  Proof.
    intros H l s. destruct (H l) as [Q V]. unfold res_of. cbn. split.
    - intros q. now rewrite (Q q).
    - intros s' v E. injection E as <- E. now rewrite (V v E).
  Qed.
  Lemma tni_bind {A B} (c : Z -> T A) (k : Z -> A -> T B) : tni c -> (forall a, tni (fun l => k l a)) -> tni (fun l => tbind (c l) (k l)).
  Proof.
    intros Hc Hk l s. destruct (Hc l s) as [Q V]. rewrite !res_tbind. split.
    - intros q. rewrite (Q q). destruct (res_of (c 0%Z) s) as [s1 [a|e]]; [|reflexivity]. now apply Hk.
    - intros s' v H. destruct (res_of (c l) s) as [s1 [a|e]] eqn:E; [|discriminate]. rewrite (V _ _ eq_refl). now apply (proj2 (Hk a l s1)).
  Qed.
  Lemma tni_if {A} (b : bool) (x y : Z -> T A) : tni x -> tni y -> tni (fun l => if b then x l else y l).
  Proof. destruct b; auto. Qed.
End Generic.

Section S.
  Context {C V : Type} (L : library C V).
  Notation world := (world C).
  Notation measure := (measure_eccentricity L).

  (** ** reading the dictionary *)
  Definition mni {A} (c : Z -> M C A) : Prop := tni (S := heap C) c.
  Lemma mni_bind {A B} (c : Z -> M C A) (k : Z -> A -> M C B) : mni c -> (forall a, mni (fun l => k l a)) -> mni (fun l => mbind C (c l) (k l)).
  Proof. exact (tni_bind (S := heap C) c k). Qed.
  Lemma mni_log {A} (c : Z -> lg A) : lni c -> mni (fun l => mlog C (c l)).
  Proof. exact (tni_log (S := heap C) c). Qed.
  Lemma mni_const {A} (x : M C A) : mni (fun _ => x).
  Proof. exact (tni_const (S := heap C) x). Qed.
  Lemma mni_transform pl tag : mni (fun l => transform_inertial_to_coprecessing C (lib_abs L) (lib_phase L) (lib_polar L) (lib_rotate L) l pl tag).
  Proof.
    unfold transform_inertial_to_coprecessing. apply (mni_bind (fun l => _) (fun l a => _)); [apply mni_const|intros d].
    apply (mni_bind (fun l => _) (fun l a => _)).
    - apply (tni_if (S := heap C)); [apply mni_const|].
      apply (mni_bind (fun l => _) (fun l a => _)); [apply mni_const|intros hlm].
      apply (mni_bind (fun l => _) (fun l a => _)); [apply mni_const|intros pl2].
      apply (mni_bind (fun l => _) (fun l a => _)); [apply mni_const|intros d2].
      apply (mni_bind (fun l => _) (fun l a => _)); [apply mni_const|intros d3].
      apply (mni_bind (fun l => _) (fun l a => _)); [apply mni_log, lni_dbg|intros _]. apply mni_const.
    - intros d1. apply (tni_if (S := heap C)); [|apply mni_const].
      apply (mni_bind (fun l => _) (fun l a => _)); [apply mni_log, lni_dbg|intros _]. apply mni_const.
  Qed.
  Lemma mni_process precessing frame num p :
    mni (fun l => process_data_dict C (lib_abs L) (lib_phase L) (lib_polar L) (lib_rotate L) (lib_sqrt L) l precessing frame num p).
  Proof.
    unfold process_data_dict. apply (mni_bind (fun l => _) (fun l a => _)).
    - unfold read_waveform. apply (mni_bind (fun l => _) (fun l a => _)); [apply mni_const|intros d0].
      apply (mni_bind (fun l => _) (fun l a => _)); [apply mni_const|intros _].
      apply (mni_bind (fun l => _) (fun l a => _)).
      + apply (tni_if (S := heap C)); [|apply mni_const].
        apply (mni_bind (fun l => _) (fun l a => _)); [apply mni_log, lni_dbg|intros _].
        apply (mni_bind (fun l => _) (fun l a => _)); [apply mni_transform|intros d1].
        apply (tni_if (S := heap C)); [apply mni_transform|apply mni_const].
      + intros d. apply mni_const.
    - intros f. apply mni_const.
  Qed.

  (** ** building the object and measuring *)
  Definition wni {A} (c : Z -> W A) : Prop := tni (S := world) c.
  Lemma wni_bind {A B} (c : Z -> W A) (k : Z -> A -> W B) : wni c -> (forall a, wni (fun l => k l a)) -> wni (fun l => wbind (c l) (k l)).
  Proof. exact (tni_bind (S := world) c k). Qed.
  Lemma wni_log {A} (c : Z -> lg A) : lni c -> wni (fun l => wlog (c l)).
  Proof. exact (tni_log (S := world) c). Qed.
  Lemma wni_const {A} (x : W A) : wni (fun _ => x).
  Proof. exact (tni_const (S := world) x). Qed.
  Lemma wni_heap {A} (c : Z -> M C A) : mni c -> wni (fun l => on_heap (c l)).
  Proof.
    intros H l w. destruct (H l (wd_heap w)) as [Q V']. unfold res_of, on_heap in *. cbv zeta. cbn [fst snd] in *. split.
    - intros q. specialize (Q q). injection Q as -> ->. reflexivity.
    - intros s' v E. injection E as <- E. specialize (V' _ v (f_equal (pair _) E)). injection V' as -> ->. reflexivity.
  Qed.
  Lemma lni_warn keys : lni (fun l => warn_unknown l keys).
  Proof.
    induction keys as [|k r IH]; [apply (lni_const (lret tt))|]. cbn [warn_unknown]. apply (lni_bind (fun l => _) (fun l a => _)); [|intros _; exact IH].
    apply lni_if; [apply lni_const|apply lni_dbg].
  Qed.
  Lemma lni_segment n w b ref : lni (fun l => use_segment (lib_secular L) l n w b ref).
  Proof.
    unfold use_segment. destruct n as [n|]; [|apply lni_const]. apply lni_if; [apply lni_const|].
    apply (lni_bind (fun l => _) (fun l a => _)); [apply lni_const|intros pn].
    apply (lni_bind (fun l => _) (fun l a => _)); [apply lni_const|intros p0].
    apply lni_if; [apply lni_const|]. apply (lni_bind (fun l => _) (fun l a => _)); [apply lni_dbg|intros _; apply lni_const].
  Qed.
  Lemma base_level a l rf pd t fl n wv op rs : @base_of C (with_level a l) rf pd t fl n wv op rs = base_of a rf pd t fl n wv op rs.
  Proof. reflexivity. Qed.
  Lemma wni_init a p : wni (fun l => init L (with_level a l) p).
  Proof.
    unfold init. cbn [with_level a_tref a_fref a_num a_precessing a_frame a_level].
    apply (wni_bind (fun l => _) (fun l a => _)); [apply wni_const|intros rf].
    apply (wni_bind (fun l => _) (fun l a => _)); [apply wni_const|intros _].
    apply (wni_bind (fun l => _) (fun l a => _)); [apply wni_heap, mni_process|intros pd]. cbv zeta.
    apply (wni_bind (fun l => _) (fun l a => _)); [apply wni_const|intros t].
    apply (wni_bind (fun l => _) (fun l a => _)); [apply wni_const|intros _].
    apply (wni_bind (fun l => _) (fun l a => _)); [apply wni_const|intros gw].
    apply (wni_bind (fun l => _) (fun l a => _)); [apply wni_const|intros fe].
    apply (wni_bind (fun l => _) (fun l a => _)); [apply wni_const|intros ek].
    apply (wni_bind (fun l => _) (fun l a => _)); [apply wni_const|intros n].
    apply (wni_bind (fun l => _) (fun l a => _)); [apply wni_log, lni_segment|intros wv].
    apply (wni_bind (fun l => _) (fun l a => _)); [apply wni_const|intros op].
    apply (wni_bind (fun l => _) (fun l a => _)); [apply wni_const|intros user].
    apply (wni_bind (fun l => _) (fun l a => _)); [apply wni_log, lni_warn|intros _].
    apply wni_const.
  Qed.
  Lemma wni_build m a p : wni (fun l => build L m (with_level a l) p).
  Proof. unfold build. apply (wni_bind (fun l => _) (fun l a => _)); [apply wni_init|intros b; apply wni_const]. Qed.
  Lemma wni_measure m a p : wni (fun l => measure m (with_level a l) p).
  Proof.
    unfold measure_eccentricity. apply (tni_if (S := world)); [|apply wni_const].
    apply (wni_bind (fun l => _) (fun l a => _)); [apply wni_build|intros o]. cbn [with_level a_level].
    intros l w. cbv zeta. unfold measure_object.
    set (c := b_config (o_base o)). set (s0 := fresh (b_degrees (o_base o))).
    set (f := fun l => measure_ecc (lib_ecc L) (lib_zero L) (lib_negative L) (find_extrema L o) (lib_spline L) (lib_pchip L) (lib_rational L) (lib_slope L) l c s0).
    change (measure_ecc (lib_ecc L) (lib_zero L) (lib_negative L) (find_extrema L o) (lib_spline L) (lib_pchip L) (lib_rational L) (lib_slope L) l c s0) with (f l).
    change (measure_ecc (lib_ecc L) (lib_zero L) (lib_negative L) (find_extrema L o) (lib_spline L) (lib_pchip L) (lib_rational L) (lib_slope L) 0%Z c s0) with (f 0%Z).
    assert (X : (quiet l -> snd (f l) = snd (f 0%Z)) /\ (forall s' v, snd (f l) = (s', Ok v) -> snd (f 0%Z) = (s', Ok v))).
    { exact (ani_measure (lib_ecc L) (lib_zero L) (lib_negative L) (find_extrema L o) (lib_spline L) (lib_pchip L) (lib_rational L) (lib_slope L) c l s0). }
    clearbody f. destruct (f l) as [wl [sl rl]], (f 0%Z) as [w0 [s00 r0]]. cbn [fst snd] in *. destruct X as [X1 X2].
    unfold res_of, wbind. cbv zeta. cbn [wlog fst snd]. split.
    - intros q. specialize (X1 q). injection X1 as -> ->. destruct r0; reflexivity.
    - intros s' v H. destruct rl as [r|e]; [|discriminate]. specialize (X2 sl r eq_refl). injection X2 as -> ->. exact H.
  Qed.
  Lemma measure_levels m a p (w : world) l : quiet l ->
    fst (measure m (with_level a l) p w) = fst (measure m (with_level a 0) p w) /\
    snd (snd (measure m (with_level a l) p w)) = snd (snd (measure m (with_level a 0) p w)).
  Proof.
    intros q. pose proof (proj1 (wni_measure m a p l w) q) as H. split; [exact (f_equal fst H)|exact (f_equal snd H)].
  Qed.
  Lemma measure_levels_ok m a p (w w' : world) l msgs d : measure m (with_level a l) p w = (w', (msgs, Ok d)) ->
    exists msgs0, measure m (with_level a 0) p w = (w', (msgs0, Ok d)).
  Proof.
    intros H. assert (E : res_of (measure m (with_level a l) p) w = (w', Ok d)) by (unfold res_of; now rewrite H).
    pose proof (proj2 (wni_measure m a p l w) w' d E) as X. clear H E.
    change (res_of (measure m (with_level a 0) p) w = (w', Ok d)) in X. unfold res_of in X.
    destruct (measure m (with_level a 0) p w) as [w0 [m0 r0]]. cbn [fst snd] in X. injection X as -> ->. eauto.
  Qed.
End S.
