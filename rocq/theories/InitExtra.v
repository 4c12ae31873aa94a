(** Proof that unknown keys of the waveform dictionary, and the order of its keys, do not matter. *)
From Verif Require Import Base BaseLemmas UtilsModel UtilsSpec UtilsLemmas ExtremaModel RationalModel MeasureModel MeasureSpec LevelLemmas
  SegmentModel SegmentSpec SegmentLemmas DataModel DataSpec DataLemmas DataLemmas2 InitModel InitSpec InitLemmas InitOptions InitSame InitKeys InitZeroecc ExtraSpec.
Open Scope string_scope.
Open Scope nat_scope.

Ltac known := cbn; tauto.

Section D.
  Context {C : Type} (cabs cphase : C -> list Q) (cpolar : list Q -> list Q -> res C) (rotate : list Q -> list C -> res (list C)) (qsqrt : Q -> Q).
  Variable p : nat.
  Notation heap := (heap C).
  Notation dval := (dval C).
  Notation hrel := (@same_but C p).
  (** Weaker: nothing is known of the two dictionaries at [p]. *)
  Definition hany (h h2 : heap) : Prop :=
    (forall q, q <> p -> nth_error h q = nth_error h2 q) /\ exists d d2, is_dict h p d /\ is_dict h2 p d2.
  Lemma rel_any h h2 : hrel h h2 -> hany h h2.
  Proof. intros [H (d & d2 & A & B & _)]. split; [exact H|]. exists d, d2. auto. Qed.
  Definition drel (d d2 : sdict dval) : Prop := NoDup (dkeys d) /\ NoDup (dkeys d2) /\ same_waveform d d2.
  Definition tag (t : string) : Prop := t = "" \/ t = "_zeroecc".

  (** ** values *)
  Lemma top_at h h2 : hany h h2 -> forall q, nth_error h q = nth_error h2 q \/ (q = p /\ exists d d2, nth_error h q = Some (OTop C d) /\ nth_error h2 q = Some (OTop C d2)).
  Proof.
    intros [H (d & d2 & A & B)] q. destruct (Nat.eq_dec q p) as [->|N]; [|left; auto]. right. split; [reflexivity|]. exists d, d2. auto.
  Qed.
  Lemma real_same h h2 v : hany h h2 -> real_of C h v = real_of C h2 v.
  Proof. intros H. destruct v; try reflexivity. cbn. destruct (top_at h h2 H p0) as [->|(_ & d & d2 & -> & ->)]; reflexivity. Qed.
  Lemma cplx_same h h2 v : hany h h2 -> cplx_of C h v = cplx_of C h2 v.
  Proof. intros H. destruct v; try reflexivity. cbn. destruct (top_at h h2 H p0) as [->|(_ & d & d2 & -> & ->)]; reflexivity. Qed.
  Lemma deep_same h h2 v : hany h h2 -> deep_val C h v = deep_val C h2 v.
  Proof. intros H. destruct v; try reflexivity. cbn. destruct (top_at h h2 H p0) as [->|(_ & d & d2 & -> & ->)]; reflexivity. Qed.
  Lemma smem_lookup (d : sdict dval) k : smem d k = match slookup d k with Some _ => true | None => false end.
  Proof. reflexivity. Qed.

  (** ** pure functions of the dictionary *)
  Lemma ampl_same h h2 d d2 t : hany h h2 -> drel d d2 -> tag t -> amplm_for C cabs h d t = amplm_for C cabs h2 d2 t.
  Proof.
    intros H (_ & _ & D) T. unfold amplm_for.
    rewrite <- !D by (destruct T as [->| ->]; known).
    destruct (slookup d ("amplm" ++ t)); [now apply real_same|]. destruct (slookup d ("hlm" ++ t)); [|reflexivity]. now rewrite (cplx_same h h2 _ H).
  Qed.
  Lemma phase_same h h2 d d2 t : hany h h2 -> drel d d2 -> tag t -> phaselm_for C cphase h d t = phaselm_for C cphase h2 d2 t.
  Proof.
    intros H (_ & _ & D) T. unfold phaselm_for.
    rewrite <- !D by (destruct T as [->| ->]; known).
    destruct (slookup d ("phaselm" ++ t)); [now apply real_same|]. destruct (slookup d ("hlm" ++ t)); [|reflexivity]. now rewrite (cplx_same h h2 _ H).
  Qed.
  Lemma get_ampl_same h h2 d d2 : hany h h2 -> drel d d2 -> get_amplm_from_dataDict C cabs h d = get_amplm_from_dataDict C cabs h2 d2.
  Proof. intros H D. unfold get_amplm_from_dataDict. rewrite (ampl_same h h2 d d2 "" H D), (ampl_same h h2 d d2 "_zeroecc" H D) by (red; auto). reflexivity. Qed.
  Lemma get_phase_same h h2 d d2 : hany h h2 -> drel d d2 -> get_phaselm_from_dataDict C cphase h d = get_phaselm_from_dataDict C cphase h2 d2.
  Proof. intros H D. unfold get_phaselm_from_dataDict. rewrite (phase_same h h2 d d2 "" H D), (phase_same h h2 d d2 "_zeroecc" H D) by (red; auto). reflexivity. Qed.
  Lemma apo_same h h2 d d2 : hany h h2 -> drel d d2 -> get_amp_phase_omega_data C cabs cphase h d = get_amp_phase_omega_data C cabs cphase h2 d2.
  Proof.
    intros H D. unfold get_amp_phase_omega_data. rewrite (get_ampl_same h h2 d d2 H D), (get_phase_same h h2 d d2 H D).
    destruct D as (_ & _ & D). rewrite !sget_lookup, <- !D by known.
    destruct (get_amplm_from_dataDict C cabs h2 d2) as [a|]; [cbn [bind]|reflexivity].
    destruct (get_phaselm_from_dataDict C cphase h2 d2) as [q|]; [cbn [bind]|reflexivity]. cbv zeta.
    destruct (sget (a ++ q)%list "phaselm") as [v|]; [cbn [bind]|reflexivity]. rewrite (real_same h h2 v H).
    destruct (real_of C h2 v) as [ph|]; [cbn [bind]|reflexivity].
    match goal with |- bind ?x _ = bind ?x _ => destruct x; [cbn [bind]|reflexivity] end.
    destruct (slookup d "omegalm_zeroecc"); [reflexivity|]. destruct (slookup (a ++ q)%list "phaselm_zeroecc") as [pv|]; [|reflexivity].
    destruct (slookup d "t_zeroecc"); [|reflexivity]. now rewrite (real_same h h2 pv H).
  Qed.
  Lemma rel_sset d d2 k v : drel d d2 -> drel (sset d k v) (sset d2 k v).
  Proof. intros (A & B & D). repeat split; [now apply keys_sset|now apply keys_sset|]. intros x Hx. rewrite !slookup_sset. destruct (String.eqb x k); auto. Qed.
  Lemma rel_update e : forall d d2, drel d d2 -> drel (dupdate String.eqb d e) (dupdate String.eqb d2 e).
  Proof. induction e as [|[k v] e IH]; intros d d2 D; [exact D|]. cbn [dupdate]. apply IH. now apply rel_sset. Qed.
  Lemma rel_spop d d2 k : drel d d2 -> drel (spop d k) (spop d2 k).
  Proof.
    intros (A & B & D). destruct (keys_spop d k A) as (A1 & A2 & _), (keys_spop d2 k B) as (B1 & B2 & _). repeat split; [exact A1|exact B1|].
    intros x Hx. destruct (string_dec x k) as [->|N]; [|rewrite !slookup_spop by exact N; auto].
    rewrite (proj2 (slookup_none (spop d k) k) A2), (proj2 (slookup_none (spop d2 k) k) B2). reflexivity.
  Qed.
  Lemma rel_copy h h2 d d2 : hany h h2 -> drel d d2 -> drel (deepcopy C h d) (deepcopy C h2 d2).
  Proof.
    intros H (A & B & D). assert (K : forall h (d : sdict dval), dkeys (deepcopy C h d) = dkeys d) by (intros; apply deepcopy_keys). unfold drel. rewrite !K. repeat split; [exact A|exact B|]. intros x Hx. rewrite !slookup_deepcopy, <- (D x Hx).
    destruct (slookup d x); [|reflexivity]. cbn. f_equal. now apply deep_same.
  Qed.
  Lemma copre_same h h2 d d2 t : hany h h2 -> drel d d2 -> tag t ->
    match get_coprecessing_data_dict C rotate h d t, get_coprecessing_data_dict C rotate h2 d2 t with Ok x, Ok y => drel x y | Err e, Err e' => e = e' | _, _ => False end.
  Proof.
    intros H R T. pose proof R as (_ & _ & D). unfold get_coprecessing_data_dict. rewrite !sget_lookup. rewrite <- !D by (destruct T as [->| ->]; known).
    destruct (slookup d ("hlm" ++ t)) as [v|]; [cbn [bind]|reflexivity]. rewrite (cplx_same h h2 v H). destruct (cplx_of C h2 v) as [m|]; [cbn [bind]|reflexivity].
    destruct (package_ell2 C m); [cbn [bind]|reflexivity]. destruct (slookup d ("t" ++ t)) as [tv|]; [cbn [bind]|reflexivity].
    destruct (arr_of C tv); [cbn [bind]|reflexivity]. destruct (rotate _ _); [cbn [bind]|reflexivity]. now apply rel_sset, rel_copy.
  Qed.
  Lemma hlm_same h h2 a q : hany h h2 -> get_hlm_from_amplm_phaselm C cpolar h a q = get_hlm_from_amplm_phaselm C cpolar h2 a q.
  Proof.
    intros H.
    assert (E : forall t, (do av <- sget a ("amplm" ++ t); do am <- real_of C h av;
                   match am with [] => Ok ("hlm" ++ t, VCplx C []) | _ => do pv <- sget q ("phaselm" ++ t); do pm <- real_of C h pv; do m <- polar_modes C cpolar am pm; Ok ("hlm" ++ t, VCplx C m) end) =
                 (do av <- sget a ("amplm" ++ t); do am <- real_of C h2 av;
                   match am with [] => Ok ("hlm" ++ t, VCplx C []) | _ => do pv <- sget q ("phaselm" ++ t); do pm <- real_of C h2 pv; do m <- polar_modes C cpolar am pm; Ok ("hlm" ++ t, VCplx C m) end)).
    { intros t. destruct (sget a ("amplm" ++ t)) as [av|]; [cbn [bind]|reflexivity]. rewrite (real_same h h2 av H).
      destruct (real_of C h2 av) as [[|]|]; [reflexivity|cbn [bind]|reflexivity]. destruct (sget q ("phaselm" ++ t)) as [pv|]; [cbn [bind]|reflexivity]. now rewrite (real_same h h2 pv H). }
    unfold get_hlm_from_amplm_phaselm. cbv zeta. now rewrite !E.
  Qed.
  Lemma modes_same h h2 d k : hany h h2 -> modes_at C h d k = modes_at C h2 d k.
  Proof. intros H. unfold modes_at. destruct (sget d k); [cbn [bind]|reflexivity]. now apply real_same. Qed.
  Lemma gw_same h h2 b d t : hany h h2 -> get_amp_phase_omega_gw C h b d t = get_amp_phase_omega_gw C h2 b d t.
  Proof. intros H. unfold get_amp_phase_omega_gw. now rewrite !(modes_same h h2 _ _ H). Qed.

  (** ** actions, side by side: [P] holds of the caller's objects before, [P'] after, also when an exception is raised *)
  Definition hpair := heap -> heap -> Prop.
  Definition msim {A B} (P P' : hpair) (R : A -> B -> Prop) (m : M C A) (m2 : M C B) : Prop := forall h h2, P h h2 ->
    P' (fst (m h)) (fst (m2 h2)) /\ fst (snd (m h)) = fst (snd (m2 h2)) /\
    match snd (snd (m h)), snd (snd (m2 h2)) with Ok a, Ok b => R a b | Err e, Err e' => e = e' | _, _ => False end.
  Lemma msim_bind {A B A2 B2} (P P1 P2 : hpair) (R : A -> A2 -> Prop) (R' : B -> B2 -> Prop) m m2 k k2 : (forall h h2, P1 h h2 -> P2 h h2) ->
    msim P P1 R m m2 -> (forall a a2, R a a2 -> msim P1 P2 R' (k a) (k2 a2)) -> msim P P2 R' (mbind C m k) (mbind C m2 k2).
  Proof.
    intros Hw Hm Hk h h2 Hp. destruct (Hm h h2 Hp) as (H1 & H2 & H3). unfold mbind. cbv zeta.
    destruct (m h) as [v1 [l1 [a|e]]], (m2 h2) as [v2 [l2 [a2|e2]]]; cbn [fst snd] in *; try (elim H3; fail); auto.
    destruct (Hk a a2 H3 v1 v2 H1) as (G1 & G2 & G3).
    destruct (k a v1) as [u1 [n1 [b|e]]], (k2 a2 v2) as [u2 [n2 [b2|e2]]]; cbn [fst snd] in *; try (elim G3; fail); subst; auto.
  Qed.
  Lemma msim_seq {A B A2 B2} (P : hpair) (R : A -> A2 -> Prop) (R' : B -> B2 -> Prop) m m2 k k2 :
    msim P P R m m2 -> (forall a a2, R a a2 -> msim P P R' (k a) (k2 a2)) -> msim P P R' (mbind C m k) (mbind C m2 k2).
  Proof. apply msim_bind. auto. Qed.
  Lemma msim_ret {A B} P (R : A -> B -> Prop) a b : R a b -> msim P P R (mret C a) (mret C b).
  Proof. intros H h h2 Hp. cbn. auto. Qed.
  Lemma msim_lift {A} P (r : res A) : msim P P eq (mlift C r) (mlift C r).
  Proof. intros h h2 Hp. cbn. split; [exact Hp|]. split; [reflexivity|]. destruct r; auto. Qed.
  Lemma msim_log {A} P (r : lg A) : msim P P eq (mlog C r) (mlog C r).
  Proof. intros h h2 Hp. cbn. split; [exact Hp|]. split; [reflexivity|]. destruct (snd r); auto. Qed.
  Lemma msim_read {A B} (P : hpair) (R : A -> B -> Prop) (f : heap -> res A) (g : heap -> res B) :
    (forall h h2, P h h2 -> match f h, g h2 with Ok a, Ok b => R a b | Err e, Err e' => e = e' | _, _ => False end) -> msim P P R (mread C f) (mread C g).
  Proof. intros H h h2 Hp. cbn. split; [exact Hp|]. split; [reflexivity|]. apply H, Hp. Qed.
  Lemma msim_same {A} (P : hpair) (f g : heap -> res A) : (forall h h2, P h h2 -> f h = g h2) -> msim P P eq (mread C f) (mread C g).
  Proof. intros H. apply msim_read. intros h h2 Hp. rewrite (H h h2 Hp). destruct (g h2); auto. Qed.
  (** What a relation on the caller's objects must satisfy from the truncation on. *)
  Definition good (P : hpair) : Prop :=
    (forall h h2, P h h2 -> hany h h2) /\ (forall h h2 q o, P h h2 -> q <> p -> P (set_nth h q o) (set_nth h2 q o)).
  Definition prel (a b : place C) : Prop :=
    match a, b with Caller _ q, Caller _ r => q = p /\ r = p | Own _ d, Own _ d2 => drel d d2 | _, _ => False end.
  Lemma top_sim a b : prel a b -> msim hrel hrel drel (mread C (fun h => top_of C h a)) (mread C (fun h => top_of C h b)).
  Proof.
    intros P. apply msim_read. intros h h2 [_ (d & d2 & A & B & R)]. destruct a, b; try (elim P; fail); cbn in *.
    - destruct P as [-> ->]. unfold is_dict in *. rewrite A, B. exact R.
    - exact P.
  Qed.
  Lemma set_any h h2 q o : hany h h2 -> q <> p -> hany (set_nth h q o) (set_nth h2 q o).
  Proof.
    intros [H (d & d2 & A & B)] N. unfold is_dict in *.
    assert (L : forall i, i <> p -> (i <? length h) = (i <? length h2)).
    { intros i Hi. specialize (H i Hi). destruct (i <? length h) eqn:E1, (i <? length h2) eqn:E2; try reflexivity; exfalso.
      - apply Nat.ltb_lt in E1. apply Nat.ltb_ge in E2. apply nth_error_None in E2. apply nth_error_Some in E1. congruence.
      - apply Nat.ltb_ge in E1. apply Nat.ltb_lt in E2. apply nth_error_None in E1. apply nth_error_Some in E2. congruence. }
    split.
    - intros i Hi. rewrite !nth_set. rewrite (L q N). destruct ((q =? i) && (q <? length h2)); [reflexivity|]. apply H, Hi.
    - exists d, d2. unfold is_dict. rewrite !nth_set. apply Nat.eqb_neq in N. rewrite N. cbn. auto.
  Qed.
  Lemma good_any : good hany.
  Proof. split; [auto|apply set_any]. Qed.
  Lemma good_rel : good hrel.
  Proof.
    split; [apply rel_any|]. intros h h2 q o H N. destruct (set_any h h2 q o (rel_any h h2 H) N) as [G _]. split; [exact G|].
    destruct H as [_ (d & d2 & A & B & R)]. exists d, d2. unfold is_dict in *. rewrite !nth_set. apply Nat.eqb_neq in N. rewrite N. cbn. auto.
  Qed.
  Lemma update_sim a b e : prel a b -> msim hrel hrel prel (update_place C a e) (update_place C b e).
  Proof.
    intros P h h2 Hp. destruct a as [q|d], b as [r|d2]; try (elim P; fail); cbn in P.
    - destruct P as [-> ->]. pose proof Hp as [H (d & d2 & A & B & R)]. unfold is_dict in *. unfold update_place. rewrite A, B. cbn.
      split; [|split; [reflexivity|auto]].
      assert (LA : p <? length h = true) by (apply Nat.ltb_lt, nth_error_Some; congruence). assert (LB : p <? length h2 = true) by (apply Nat.ltb_lt, nth_error_Some; congruence).
      split.
      + intros i Hi. rewrite !nth_set. assert (E : p =? i = false) by (apply Nat.eqb_neq; auto). rewrite E. cbn. auto.
      + exists (dupdate String.eqb d e), (dupdate String.eqb d2 e). unfold is_dict. rewrite !nth_set, Nat.eqb_refl, LA, LB. cbn. split; [reflexivity|]. split; [reflexivity|]. now apply rel_update.
    - cbn. split; [exact Hp|]. split; [reflexivity|]. now apply rel_update.
  Qed.
  Lemma mem_same d d2 k : drel d d2 -> In k known_keys -> smem d k = smem d2 k.
  Proof. intros (_ & _ & D) H. rewrite !smem_lookup, D by exact H. reflexivity. Qed.
  Lemma trans_sim level a b t : tag t -> prel a b ->
    msim hrel hrel drel (transform_inertial_to_coprecessing C cabs cphase cpolar rotate level a t) (transform_inertial_to_coprecessing C cabs cphase cpolar rotate level b t).
  Proof.
    intros T P. unfold transform_inertial_to_coprecessing. eapply msim_seq; [now apply top_sim|]. intros d d2 R. apply (msim_seq _ drel drel).
    - rewrite (mem_same d d2 ("hlm" ++ t) R) by (destruct T as [->| ->]; known). destruct (smem d2 ("hlm" ++ t)).
      + apply msim_read. intros h h2 Hp. apply copre_same; auto using rel_any.
      + eapply (msim_seq _ eq).
        { apply msim_same. intros h h2 Hp. rewrite (get_ampl_same h h2 d d2 (rel_any _ _ Hp) R), (get_phase_same h h2 d d2 (rel_any _ _ Hp) R).
          destruct (get_amplm_from_dataDict C cabs h2 d2); [cbn [bind]|reflexivity]. destruct (get_phaselm_from_dataDict C cphase h2 d2); [cbn [bind]|reflexivity]. apply hlm_same, rel_any, Hp. }
        intros e ? <-. eapply msim_seq; [now apply update_sim|]. intros a2 b2 P2. eapply msim_seq; [now apply top_sim|]. intros d3 d4 R3.
        eapply (msim_seq _ drel); [apply msim_read; intros h h2 Hp; apply copre_same; auto using rel_any|]. intros d5 d6 R5.
        eapply msim_seq; [apply msim_log|]. intros _ _ _. apply msim_ret. now apply rel_spop, rel_spop.
    - intros d3 d4 R3. rewrite (mem_same d3 d4 ("omegalm" ++ t) R3) by (destruct T as [->| ->]; known). destruct (smem d4 ("omegalm" ++ t)).
      + eapply msim_seq; [apply msim_log|]. intros _ _ _. apply msim_ret. now apply rel_spop.
      + now apply msim_ret.
  Qed.
  Lemma check_same d d2 : drel d d2 -> check_representation C d = check_representation C d2.
  Proof. intros R. unfold check_representation. rewrite !(mem_same d d2 _ R) by known. reflexivity. Qed.
  Lemma read_sim level b frame : msim hrel hrel eq (read_waveform C cabs cphase cpolar rotate qsqrt level b frame p) (read_waveform C cabs cphase cpolar rotate qsqrt level b frame p).
  Proof.
    unfold read_waveform. eapply msim_seq; [apply top_sim; cbn; auto|]. intros d d2 R. rewrite (check_same d d2 R).
    eapply msim_seq; [apply msim_lift|]. intros _ _ _. eapply (msim_seq _ drel).
    { destruct (b && String.eqb frame "inertial"); [|now apply msim_ret]. eapply msim_seq; [apply msim_log|]. intros _ _ _.
      eapply msim_seq; [apply trans_sim; [red; auto|cbn; auto]|]. intros d1 d3 R1. rewrite !(mem_same d1 d3 _ R1) by known.
      destruct (smem d3 "hlm_zeroecc" || smem d3 "amplm_zeroecc"); [|now apply msim_ret]. apply trans_sim; [red; auto|exact R1]. }
    intros d1 d3 R1. pose proof R1 as (_ & _ & D). rewrite !D by known.
    eapply msim_seq; [apply msim_lift|]. intros t ? <-.
    eapply msim_seq; [apply msim_same; intros h h2 Hp; apply apo_same; [apply rel_any, Hp|exact R1]|]. intros apo ? <-. cbv zeta.
    apply msim_same. intros h h2 Hp. rewrite (modes_same h h2 _ _ (rel_any _ _ Hp)), (gw_same h h2 _ _ _ (rel_any _ _ Hp)). reflexivity.
  Qed.
  Lemma cut_sim P idx d k : good P -> msim P P eq (cut_entry C idx d k) (cut_entry C idx d k).
  Proof.
    intros [G1 G2] h h2 Hp. unfold cut_entry. destruct (sget d k) as [v|]; [|cbn; auto]. destruct v as [x|x|x|q|]; try (cbn; auto; fail).
    destruct (top_at h h2 (G1 _ _ Hp) q) as [E|(-> & x & y & -> & ->)]; [|cbn; auto]. rewrite <- E. destruct (nth_error h q) as [[m|m|m]|] eqn:Eq; try (cbn; auto; fail).
    cbn. split; [|auto]. apply G2; [exact Hp|]. intros ->. destruct (G1 _ _ Hp) as [_ (x & y & A & _)]. unfold is_dict in A. congruence.
  Qed.
  Lemma truncate_sim P num f : good P -> msim P P eq (truncate C num f) (truncate C num f).
  Proof.
    intros G. unfold truncate. destruct num as [n|]; [|now apply msim_ret]. destruct (Qlt_bool n 0); [apply msim_lift|].
    eapply msim_seq; [apply msim_lift|]. intros idx ? <-. repeat (eapply msim_seq; [now apply cut_sim|]; intros ? ? <-). now apply msim_ret.
  Qed.
  Notation reading := (read_waveform C cabs cphase cpolar rotate qsqrt).
  Lemma process_sim P0 P level b frame num : good P -> msim P0 P eq (reading level b frame p) (reading level b frame p) ->
    msim P0 P eq (process_data_dict C cabs cphase cpolar rotate qsqrt level b frame num p) (process_data_dict C cabs cphase cpolar rotate qsqrt level b frame num p).
  Proof.
    intros G H. unfold process_data_dict. eapply msim_bind; [|exact H|]; [auto|]. intros f ? <-. eapply (msim_seq _ eq); [now apply truncate_sim|].
    intros d ? <-. now apply msim_ret.
  Qed.
End D.

Section S.
  Context {C V : Type} (L : library C V) (p : nat).
  Notation world := (world C).
  Notation hpair := (@hpair C).
  Definition wrel (P : hpair) (w w2 : world) : Prop := P (wd_heap w) (wd_heap w2) /\ wd_extra w = wd_extra w2.
  Definition wsim {A B} (P P' : hpair) (R : A -> B -> Prop) (m : W A) (m2 : W B) : Prop := forall w w2, wrel P w w2 ->
    wrel P' (fst (m w)) (fst (m2 w2)) /\ but_unknown (fst (snd (m w))) = but_unknown (fst (snd (m2 w2))) /\
    match snd (snd (m w)), snd (snd (m2 w2)) with Ok a, Ok b => R a b | Err e, Err e' => e = e' | _, _ => False end.
  Lemma wsim_bind {A B A2 B2} (P P1 P2 : hpair) (R : A -> A2 -> Prop) (R' : B -> B2 -> Prop) m m2 k k2 : (forall h h2, P1 h h2 -> P2 h h2) ->
    wsim P P1 R m m2 -> (forall a a2, R a a2 -> wsim P1 P2 R' (k a) (k2 a2)) -> wsim P P2 R' (wbind m k) (wbind m2 k2).
  Proof.
    intros Hw Hm Hk w w2 Hp. destruct (Hm w w2 Hp) as (H1 & H2 & H3). unfold wbind. cbv zeta.
    destruct (m w) as [v1 [l1 [a|e]]], (m2 w2) as [v2 [l2 [a2|e2]]]; cbn [fst snd] in *; try (elim H3; fail); auto.
    2:{ split; [|auto]. destruct H1. split; auto. }
    destruct (Hk a a2 H3 v1 v2 H1) as (G1 & G2 & G3).
    destruct (k a v1) as [u1 [n1 [b|e]]], (k2 a2 v2) as [u2 [n2 [b2|e2]]]; cbn [fst snd] in *; try (elim G3; fail); subst; (split; [exact G1|]; split; [|auto]);
      unfold but_unknown in *; rewrite !filter_app; congruence.
  Qed.
  Lemma wsim_seq {A B A2 B2} (P : hpair) (R : A -> A2 -> Prop) (R' : B -> B2 -> Prop) m m2 k k2 :
    wsim P P R m m2 -> (forall a a2, R a a2 -> wsim P P R' (k a) (k2 a2)) -> wsim P P R' (wbind m k) (wbind m2 k2).
  Proof. apply wsim_bind. auto. Qed.
  Lemma wsim_ret {A} P (a : A) : wsim P P eq (wret a) (wret a).
  Proof. intros w w2 H. cbn. auto. Qed.
  Lemma wsim_lift {A} P (r : res A) : wsim P P eq (wlift r) (wlift r).
  Proof. intros w w2 H. cbn. split; [exact H|]. split; [reflexivity|]. destruct r; auto. Qed.
  Lemma wsim_log {A} P (r : lg A) : wsim P P eq (wlog r) (wlog r).
  Proof. intros w w2 H. cbn. split; [exact H|]. split; [reflexivity|]. destruct (snd r); auto. Qed.
  Lemma wsim_read {A} (P : hpair) (f g : heap C -> res A) : (forall h h2, P h h2 -> f h = g h2) -> wsim P P eq (wread f) (wread g).
  Proof. intros E w w2 H. unfold wread. rewrite (E _ _ (proj1 H)). cbn. split; [exact H|]. split; [reflexivity|]. destruct (g (wd_heap w2)); auto. Qed.
  Lemma wsim_heap {A} P P' (m : M C A) : msim P P' eq m m -> wsim P P' eq (on_heap m) (on_heap m).
  Proof.
    intros E w w2 [H1 H2]. destruct (E _ _ H1) as (A1 & A2 & A3). unfold on_heap. cbn. split; [split; [exact A1|exact H2]|]. split; [now rewrite A2|exact A3].
  Qed.
  Lemma copy_same h h2 (d : sdict (dval C)) : hany p h h2 -> deepcopy C h d = deepcopy C h2 d.
  Proof. intros H. unfold deepcopy. apply map_ext. intros kv. now rewrite (deep_same p h h2 _ H). Qed.
  Lemma filter_sim P tm d : good p P -> wsim P P eq (filter_step L tm d) (filter_step L tm d).
  Proof.
    intros [G _] w w2 H. pose proof H as [H1 H2]. unfold filter_step. rewrite <- H2. cbv zeta.
    match goal with |- wrel _ (fst (?m w)) (fst (?m2 w2)) /\ _ => enough (X : wsim P P eq m m2) by (exact (X w w2 H)) end.
    clear H1 H2 H. revert w.
    intros w. eapply wsim_seq; [apply wsim_lift|]. intros user ? <-. eapply wsim_seq; [apply wsim_lift|]. intros fk ? <-.
    assert (S : forall e, wsim P P eq (set_extra e) (set_extra e)) by (intros e u u2 [U1 U2]; cbn; split; [split; [exact U1|reflexivity]|auto]).
    eapply (wsim_seq _ eq). { destruct (wd_extra w); [|apply wsim_ret]. destruct (slookup _ _) as [[]|]; try apply wsim_ret; apply S. }
    intros _ _ _. eapply (wsim_seq _ eq); [apply wsim_read; intros h h2 Hp; f_equal; apply copy_same, G, Hp|]. intros cp ? <-.
    eapply wsim_seq; [apply wsim_log|]. intros fl ? <-. eapply (wsim_seq _ eq). { destruct (wd_extra w); [apply S|apply wsim_ret]. }
    intros _ _ _. apply wsim_ret.
  Qed.
  Lemma residual_same h h2 b d w tm g : hany p h h2 -> compute_residual L h b d w tm g = compute_residual L h2 b d w tm g.
  Proof. intros H. unfold compute_residual. now rewrite (gw_same p h h2 _ _ _ H), (modes_same p h h2 _ _ H). Qed.
  Lemma warn_quiet level keys : In level [-1; 0; 1]%Z -> but_unknown (fst (warn_unknown level keys)) = [] /\ snd (warn_unknown level keys) = Ok tt.
  Proof.
    intros H. induction keys as [|k keys [IH1 IH2]]; [split; reflexivity|]. cbn [warn_unknown].
    assert (Q : forall x : lg unit, but_unknown (fst x) = [] -> snd x = Ok tt -> but_unknown (fst (let! _ := x in warn_unknown level keys)) = [] /\ snd (let! _ := x in warn_unknown level keys) = Ok tt).
    { intros [l r] A B. cbn [fst snd] in *. subst r. unfold lbind. cbn [fst snd]. unfold but_unknown in *. rewrite filter_app, A, IH1, IH2. auto. }
    apply Q; destruct (existsb _ _); try reflexivity; destruct H as [<-|[<-|[<-|[]]]]; reflexivity.
  Qed.
  Notation reading := (read_waveform C (lib_abs L) (lib_phase L) (lib_polar L) (lib_rotate L) (lib_sqrt L)).
  Variables (P0 P : hpair) (a : args).
  Hypothesis PP : forall h h2, P0 h h2 -> P h h2.
  Hypothesis G : good p P.
  Hypothesis Rd : msim P0 P eq (reading (a_level a) (a_precessing a) (a_frame a) p) (reading (a_level a) (a_precessing a) (a_frame a) p).
  Hypothesis Lv : In (a_level a) [-1; 0; 1]%Z.
  Lemma init_sim : wsim P0 P eq (init L a p) (init L a p).
  Proof.
    unfold init.
    eapply wsim_bind; [exact PP|apply wsim_lift|]. intros rf ? <-.
    eapply wsim_bind; [exact PP|apply wsim_lift|]. intros _ _ _.
    eapply wsim_bind; [|apply wsim_heap, process_sim; [exact G|exact Rd]|]; [auto|]. intros pd ? <-. cbv zeta.
    eapply wsim_seq; [apply wsim_lift|]. intros t ? <-.
    eapply wsim_seq; [apply wsim_lift|]. intros _ _ _.
    eapply wsim_seq; [apply wsim_read; intros h h2 Hp; apply (gw_same p), G, Hp|]. intros gw ? <-.
    eapply (wsim_seq _ eq).
    { destruct (a_precessing a); [now apply filter_sim|]. intros w w2 H. cbn. split; [exact H|]. split; [reflexivity|]. now rewrite (proj2 H). }
    intros fe ? <-.
    eapply wsim_seq; [apply wsim_lift|]. intros ek ? <-.
    eapply wsim_seq; [apply wsim_lift|]. intros n ? <-.
    eapply wsim_seq; [apply wsim_log|]. intros wv ? <-.
    eapply wsim_seq; [apply wsim_lift|]. intros op ? <-.
    eapply (wsim_seq _ (fun _ _ => True)).
    { intros w w2 H. unfold wread. cbn [fst snd lift]. split; [exact H|]. split; [reflexivity|].
      destruct H as [H _]. apply G in H. destruct H as [_ (d & d2 & A & B)]. unfold is_dict in *. cbn. now rewrite A, B. }
    intros u u2 _. eapply (wsim_seq _ (fun _ _ => True)).
    { intros w w2 H. unfold wlog. cbn [fst snd]. split; [exact H|].
      destruct (warn_quiet (a_level a) (dkeys u) Lv) as [-> ->], (warn_quiet (a_level a) (dkeys u2) Lv) as [-> ->]. auto. }
    intros _ _ _.
    eapply wsim_seq; [apply wsim_read; intros h h2 Hp; now rewrite (residual_same h h2 _ _ _ _ _ (proj1 G _ _ Hp))|]. intros rs ? <-. apply wsim_ret.
  Qed.
  Lemma build_sim m : wsim P0 P eq (build L m a p) (build L m a p).
  Proof.
    unfold build. eapply wsim_bind; [|apply init_sim|]; [auto|]. intros b ? <-. cbv zeta.
    repeat match goal with |- wsim _ _ _ (if String.eqb m ?k then _ else _) _ => destruct (String.eqb m k) end;
      repeat (eapply wsim_seq; [apply wsim_lift|]; intros ? ? <-); apply wsim_ret.
  Qed.
  Lemma call_sim m : wsim P0 P eq (measure_eccentricity L m a p) (measure_eccentricity L m a p).
  Proof.
    unfold measure_eccentricity. destruct (existsb _ _).
    2:{ intros w w2 [H1 H2]. cbn. split; [split; auto|auto]. }
    eapply wsim_bind; [|apply build_sim|]; [auto|]. intros o ? <-. cbv zeta. eapply wsim_seq; [apply wsim_log|]. intros r ? <-. apply wsim_ret.
  Qed.
  Lemma call_same m h h2 x : P0 h h2 ->
    let r := measure_eccentricity L m a p {| wd_heap := h; wd_extra := x |} in
    let r2 := measure_eccentricity L m a p {| wd_heap := h2; wd_extra := x |} in
    P (wd_heap (fst r)) (wd_heap (fst r2)) /\ wd_extra (fst r) = wd_extra (fst r2) /\
    but_unknown (fst (snd r)) = but_unknown (fst (snd r2)) /\ snd (snd r) = snd (snd r2).
  Proof.
    intros H. cbv zeta. destruct (call_sim m {| wd_heap := h; wd_extra := x |} {| wd_heap := h2; wd_extra := x |} (conj H eq_refl)) as ([A A2] & B & D).
    split; [exact A|]. split; [exact A2|]. split; [exact B|]. revert D.
    generalize (snd (snd (measure_eccentricity L m a p {| wd_heap := h; wd_extra := x |}))) as r1.
    generalize (snd (snd (measure_eccentricity L m a p {| wd_heap := h2; wd_extra := x |}))) as r2. intros [?|?] [?|?] D; try (elim D; fail); now subst.
  Qed.
End S.
Lemma unknown_claim C V (L : library C V) m a p h h2 x : In (a_level a) [-1; 0; 1]%Z -> same_but p h h2 ->
  let r := measure_eccentricity L m a p {| wd_heap := h; wd_extra := x |} in
  let r2 := measure_eccentricity L m a p {| wd_heap := h2; wd_extra := x |} in
  same_but p (wd_heap (fst r)) (wd_heap (fst r2)) /\ wd_extra (fst r) = wd_extra (fst r2) /\
  but_unknown (fst (snd r)) = but_unknown (fst (snd r2)) /\ snd (snd r) = snd (snd r2).
Proof. intros Lv. exact (call_same L p _ _ a (fun _ _ H => H) (good_rel p) (read_sim _ _ _ _ _ p _ _ _) Lv m h h2 x). Qed.
