(** Keyword checking, debug messages, interpolation, frequency-to-time fit bounds. *)
From Verif Require Import Base BaseLemmas UtilsModel UtilsSpec.
Open Scope nat_scope.

(** ** check_kwargs_and_set_defaults *)
Lemma fill_defaults_app {V} (default : sdict V) : forall user,
  NoDup (dkeys default) ->
  fill_defaults user default = user ++ filter (fun kv => negb (smem user (fst kv))) default.
Proof.
  unfold fill_defaults. induction default as [|[k v] d IH]; intros user HN; cbn [fold_left filter].
  - now rewrite app_nil_r.
  - inversion HN as [|? ? H1 H2]; subst. cbn [fst snd].
    destruct (smem user k) eqn:E; cbn [negb].
    + apply IH. exact H2.
    + rewrite IH by exact H2. rewrite sset_fresh by (now apply smem_false).
      rewrite <- app_assoc. cbn [app]. do 2 f_equal.
      apply filter_ext_in. intros [k' v'] Hin. cbn [fst]. f_equal.
      unfold smem, dmem. fold (slookup user k') (slookup (user ++ [(k, v)]) k').
      assert (k' <> k).
      { intros ->. apply H1. apply in_map_iff. exists (k, v'). auto. }
      assert (X : slookup (user ++ [(k, v)]) k' = slookup user k').
      { rewrite <- sset_fresh by (now apply smem_false). rewrite slookup_sset.
        destruct (String.eqb_spec k' k); [contradiction|reflexivity]. }
      now rewrite X.
Qed.

Lemma check_kwargs_spec {V} (user : option (sdict V)) (default : sdict V) :
  let u := match user with None => [] | Some u => u end in
  NoDup (dkeys default) -> NoDup (dkeys u) ->
  (check_kwargs_and_set_defaults user default = Err ValueError <->
     exists k, In k (dkeys u) /\ ~ In k (dkeys default)) /\
  (forall e, check_kwargs_and_set_defaults user default = Err e -> e = ValueError) /\
  (forall r, check_kwargs_and_set_defaults user default = Ok r ->
     NoDup (dkeys r) /\ (forall k, In k (dkeys r) <-> In k (dkeys default)) /\
     (forall k v, In (k, v) r <-> In (k, v) u \/ (In (k, v) default /\ ~ In k (dkeys u)))).
Proof.
  intros u HN HU. unfold check_kwargs_and_set_defaults. fold u.
  destruct (forallb (fun kw => smem default kw) (dkeys u)) eqn:E.
  - rewrite forallb_forall in E.
    assert (S : forall k, In k (dkeys u) -> In k (dkeys default))
      by (intros k Hk; apply smem_in; apply E; exact Hk).
    split; [|split].
    + split; [discriminate|]. intros [k [H1 H2]]. exfalso. auto.
    + discriminate.
    + intros r Hr. apply Ok_inj in Hr. subst r. rewrite fill_defaults_app by exact HN.
      assert (F : forall k v, In (k, v) (filter (fun kv => negb (smem u (fst kv))) default) <->
                  In (k, v) default /\ ~ In k (dkeys u)).
      { intros k v. rewrite filter_In. cbn [fst]. rewrite negb_true_iff, smem_false. reflexivity. }
      split; [|split].
      * unfold dkeys. rewrite map_app.
        assert (ND2 : NoDup (map fst (filter (fun kv => negb (smem u (fst kv))) default))).
        { clear -HN. induction default as [|[k v] d IH]; cbn; [constructor|].
          inversion HN as [|? ? H1 H2]; subst.
          destruct (negb (smem u k)); cbn; [|auto]. constructor; [|auto].
          intros Hin. apply H1. apply in_map_iff in Hin. destruct Hin as [[k' v'] [<- Hin]].
          apply filter_In in Hin. apply in_map_iff. exists (k', v'). tauto. }
        assert (DJ : forall k, In k (map fst u) ->
                     ~ In k (map fst (filter (fun kv => negb (smem u (fst kv))) default))).
        { intros k Hk Hin. apply in_map_iff in Hin. destruct Hin as [[k' v'] [<- Hin]].
          apply F in Hin. cbn in Hk. tauto. }
        clear -HU ND2 DJ. unfold dkeys in HU. induction (map fst u) as [|k l IH]; cbn; [exact ND2|].
        inversion HU as [|? ? H1 H2]; subst. constructor.
        -- rewrite in_app_iff. intros [H|H]; [auto|]. apply (DJ k); [left; auto|exact H].
        -- apply IH; auto. intros k' Hk'. apply DJ. right. exact Hk'.
      * intros k. unfold dkeys. rewrite map_app, in_app_iff. split.
        -- intros [H|H]; [apply S; exact H|].
           apply in_map_iff in H. destruct H as [[k' v'] [<- H]]. apply F in H.
           apply in_map_iff. exists (k', v'). tauto.
        -- intros H. destruct (in_dec string_dec k (dkeys u)) as [D|D]; [left; exact D|right].
           apply in_map_iff in H. destruct H as [[k' v'] [<- H]].
           apply in_map_iff. exists (k', v'). split; [reflexivity|]. apply F. auto.
      * intros k v. rewrite in_app_iff, F. reflexivity.
  - assert (X : exists k, In k (dkeys u) /\ ~ In k (dkeys default)).
    { clear HU. induction (dkeys u) as [|k l IH]; cbn in E; [discriminate|].
      destruct (smem default k) eqn:Ek.
      - destruct (IH E) as [k' [H1 H2]]. exists k'. split; [right; exact H1|exact H2].
      - exists k. split; [left; reflexivity|]. now apply smem_false. }
    split; [|split].
    + split; auto.
    + intros e He. congruence.
    + discriminate.
Qed.

(** ** raise_exception_if_none *)
Lemma raise_if_none_spec {V} (kw : sdict (option V)) keys :
  (raise_exception_if_none kw keys = Ok tt <->
     forall k, In k keys -> exists v, slookup kw k = Some (Some v)).
Proof.
  induction keys as [|k keys IH]; cbn [raise_exception_if_none].
  - split; [intros _ k []|auto].
  - unfold sget, dget. fold (slookup kw k). destruct (slookup kw k) as [[v|]|] eqn:E; cbn [bind].
    + rewrite IH. split.
      * intros H k' [<-|Hk']; eauto.
      * intros H k' Hk'. apply H. right. exact Hk'.
    + split; [discriminate|]. intros H. destruct (H k (or_introl eq_refl)) as [v Hv]. congruence.
    + split; [discriminate|]. intros H. destruct (H k (or_introl eq_refl)) as [v Hv]. congruence.
Qed.

(** ** debug_message *)
Lemma debug_message_levels msg level imp ptv :
  (debug_message msg level imp ptv = Err ValueError <-> ~ In level [-1; 0; 1; 2]%Z) /\
  (debug_message msg (-1) imp ptv = Ok []) /\
  (debug_message msg 0 false ptv = Ok []) /\
  (debug_message msg 0 true false = Ok [msg]) /\
  (exists s, debug_message msg 0 true true = Ok [(msg ++ s)%string]) /\
  (debug_message msg 1 imp ptv = Ok [msg]) /\
  (debug_message msg 2 imp ptv = Err GenericException).
Proof.
  split; [|repeat split; try reflexivity; eexists; reflexivity].
  unfold debug_message.
  destruct (existsb (Z.eqb level) [-1; 0; 1; 2]%Z) eqn:E; cbn [negb].
  - apply existsb_exists in E. destruct E as [x [H1 H2]]. apply Z.eqb_eq in H2. subst x.
    split; [|tauto]. destruct H1 as [<-|[<-|[<-|[<-|[]]]]]; cbn; try discriminate.
  - split; auto. intros _ H. assert (X : existsb (Z.eqb level) [-1; 0; 1; 2]%Z = true).
    { apply existsb_exists. exists level. split; [exact H|apply Z.eqb_refl]. } congruence.
Qed.

(** ** get_interpolant *)
Lemma all_increasing_iff x : all_increasing x = true <-> increasing x.
Proof.
  unfold all_increasing, increasing. rewrite forallb_forall. split.
  - intros H.
    assert (St : forall i a b, nth_error x i = Some a -> nth_error x (S i) = Some b -> (a < b)%Q).
    { intros i a b Ha Hb. assert (Hin : In (b - a)%Q (qdiff x)).
      { apply nth_error_In with i. apply qdiff_nth. exists a, b. auto. }
      apply H in Hin. apply Qlt_bool_iff in Hin. lra. }
    intros i j a b Hij Ha Hb. revert b Hb. induction Hij as [|j Hij IH]; intros b Hb.
    + eauto.
    + destruct (nth_error x j) as [c|] eqn:Ec.
      * specialize (IH c eq_refl). specialize (St j c b Ec Hb). lra.
      * apply nth_error_None in Ec. assert (S j < length x) by (apply nth_error_Some; congruence). lia.
  - intros H d Hd. apply In_nth_error in Hd. destruct Hd as [i Hi]. apply qdiff_nth in Hi.
    destruct Hi as [a [b [Ha [Hb ->]]]]. apply Qlt_bool_iff.
    specialize (H i (S i) a b ltac:(lia) Ha Hb). lra.
Qed.

Lemma fix_ext_false e : fix_ext false e = 2%Z.
Proof. unfold fix_ext. cbn. destruct (Z.eqb_spec e 2); cbn; congruence. Qed.
Lemma fix_ext_true e : fix_ext true e = if (e =? 2)%Z then 0%Z else e.
Proof. unfold fix_ext. cbn. destruct (e =? 2)%Z; reflexivity. Qed.

Lemma get_interpolant_spline_ok x y allow kw f :
  fst (get_interpolant x y allow "spline" kw) = Ok f ->
  let d := match kw with None => get_default_spline_kwargs | Some d => d end in
  increasing x /\ 2 <= length x /\
  f = SplineI x y (if length x <=? sp_k d then length x - 1 else sp_k d) (fix_ext allow (sp_ext d)).
Proof.
  unfold get_interpolant. destruct (all_increasing x) eqn:E; cbn [negb]; [|discriminate].
  apply all_increasing_iff in E. cbn [String.eqb].
  change (("spline" =? "spline")%string) with true. cbv iota.
  destruct (Nat.ltb_spec (length x) 2); [discriminate|].
  intros H0. split; [exact E|]. split; [lia|].
  destruct (length x <=? _); cbn in H0 |- *; congruence.
Qed.

Lemma get_interpolant_spline_total x y allow kw :
  increasing x -> 2 <= length x -> exists f, fst (get_interpolant x y allow "spline" kw) = Ok f.
Proof.
  intros H1 H2. unfold get_interpolant. rewrite (proj2 (all_increasing_iff x) H1). cbn [negb].
  change (("spline" =? "spline")%string) with true. cbv iota.
  destruct (Nat.ltb_spec (length x) 2); [lia|].
  destruct (length x <=? _); cbn; eauto.
Qed.

Lemma get_interpolant_k_unchanged x y allow kind d :
  exists d', snd (get_interpolant x y allow kind (Some d)) = Some d' /\ sp_k d' = sp_k d.
Proof.
  unfold get_interpolant. destruct (negb _); [eexists; split; reflexivity|].
  destruct (String.eqb kind "spline").
  - destruct (length x <? 2); [eexists; split; reflexivity|].
    destruct (length x <=? sp_k d); eexists; split; reflexivity.
  - destruct (String.eqb kind "monotonic_spline"); [destruct (length x <? 2)|]; eexists; split; reflexivity.
Qed.

Lemma run_calls_k d h : sp_k (run_calls d h) = sp_k d.
Proof.
  revert d. induction h as [|c h IH]; intros d; cbn [run_calls fold_left]; [reflexivity|].
  destruct (get_interpolant_k_unchanged (ic_x c) (ic_y c) (ic_allow c) (ic_kind c) d) as [d' [H1 H2]].
  rewrite H1. fold (run_calls d' h). now rewrite IH.
Qed.
Lemma run_calls_ext d h : In (sp_ext d) [0; 2]%Z -> In (sp_ext (run_calls d h)) [0; 2]%Z.
Proof.
  revert d. induction h as [|c h IH]; intros d H; cbn [run_calls fold_left]; [exact H|].
  apply IH. unfold get_interpolant.
  destruct (negb _); [exact H|]. destruct (String.eqb _ "spline").
  - destruct (_ <? 2); [exact H|]. destruct (_ <=? _); [exact H|]. cbn [snd sp_ext].
    destruct (ic_allow c); [rewrite fix_ext_true|rewrite fix_ext_false; cbn; auto].
    destruct H as [<-|[<-|[]]]; cbn; auto.
  - destruct (String.eqb _ _); [destruct (_ <? 2)|]; exact H.
Qed.

Lemma ext_after_history d h x y allow f :
  fst (get_interpolant x y allow "spline" (Some (run_calls d h))) = Ok f ->
  (allow = false -> ext_of f = Some 2%Z) /\
  (allow = true -> In (sp_ext d) [0; 2]%Z -> ext_of f = Some 0%Z) /\
  deg_of f = Some (if length x <=? sp_k d then length x - 1 else sp_k d).
Proof.
  intros H. apply get_interpolant_spline_ok in H. cbn zeta in H. destruct H as [_ [_ ->]].
  cbn [ext_of deg_of]. rewrite run_calls_k. split; [|split; [|reflexivity]].
  - intros ->. now rewrite fix_ext_false.
  - intros -> H. rewrite fix_ext_true. generalize (run_calls_ext d h H).
    intros [<-|[<-|[]]]; reflexivity.
Qed.

(** ** interpolate *)
Section Interp.
  Variable spline_val : list Q -> list Q -> nat -> Q -> Q.
  Variable pchip_val : list Q -> list Q -> Q -> Q.
  Notation eval1 := (eval_interpolant spline_val pchip_val).
  Notation evalN := (eval_all spline_val pchip_val).
  Notation interp := (interpolate spline_val pchip_val).

  Lemma eval_all_map f ts r : evalN f ts = Ok r ->
    length r = length ts /\ forall i t, nth_error ts i = Some t ->
      exists v, nth_error r i = Some v /\ eval1 f t = Ok v.
  Proof.
    revert r. induction ts as [|t ts IH]; cbn; intros r H.
    - injection H as <-. split; [reflexivity|]. intros i t Hi. destruct i; discriminate.
    - inv_bind H. inv_bind H. injection H as <-. destruct (IH _ E0) as [L K].
      split; [cbn; congruence|]. intros i s Hi. destruct i as [|i]; cbn in *; [|auto].
      injection Hi as <-. eauto.
  Qed.

  Lemma eval_no_extrap x y k t v : eval1 (SplineI x y k 2) t = Ok v ->
    exists lo hi, nth_error x 0 = Some lo /\ nth_error x (length x - 1) = Some hi /\
      (lo <= t <= hi)%Q /\ v = spline_val x y k t.
  Proof.
    cbn. intros H. inv_bind H. inv_bind H. apply get_ok in E. apply last_of_nth in E0.
    destruct (Qlt_bool t v0) eqn:E1; cbn in H; [discriminate|].
    destruct (Qlt_bool v1 t) eqn:E2; cbn in H; [discriminate|].
    injection H as <-. apply Qlt_bool_false in E1. apply Qlt_bool_false in E2.
    exists v0, v1. repeat split; try tauto.
  Qed.

  Lemma interpolate_spline_value newX oldX oldY kw r :
    interp newX oldX oldY false "spline" kw = Ok r -> exists k, r = map (spline_val oldX oldY k) newX.
  Proof.
    unfold interpolate. destruct (Nat.eqb_spec (length oldY) (length oldX)) as [E|E]; cbn [negb]; [|discriminate].
    intros H. inv_bind H. clear E0. inv_bind H.
    apply get_interpolant_spline_ok in E0. cbn zeta in E0. destruct E0 as [H1 [H2 ->]].
    rewrite fix_ext_false in H. destruct (eval_all_map _ _ _ H) as [H3 H4].
    eexists. apply list_ext. intros i. rewrite nth_error_map.
    destruct (nth_error newX i) as [t|] eqn:Et.
    - destruct (H4 i t Et) as [w [Hw Ev]]. apply eval_no_extrap in Ev. destruct Ev as (_ & _ & _ & _ & _ & ->). exact Hw.
    - apply nth_error_None in Et. apply nth_error_None. lia.
  Qed.
  Lemma interpolate_spline_safe newX oldX oldY kw r :
    interp newX oldX oldY false "spline" kw = Ok r ->
    length oldX = length oldY /\ increasing oldX /\ 2 <= length oldX /\ length r = length newX /\
    exists lo hi, nth_error oldX 0 = Some lo /\ nth_error oldX (length oldX - 1) = Some hi /\
      forall t, In t newX -> (lo <= t <= hi)%Q.
  Proof.
    unfold interpolate. destruct (Nat.eqb_spec (length oldY) (length oldX)) as [E|E]; cbn [negb]; [|discriminate].
    intros H. inv_bind H. clear E0. inv_bind H.
    apply get_interpolant_spline_ok in E0. cbn zeta in E0. destruct E0 as [H1 [H2 ->]].
    rewrite fix_ext_false in H. destruct (eval_all_map _ _ _ H) as [H3 H4].
    split; [auto|]. split; [exact H1|]. split; [exact H2|]. split; [exact H3|].
    destruct (nth_error oldX 0) as [lo|] eqn:Elo; [|apply nth_error_None in Elo; lia].
    destruct (nth_error oldX (length oldX - 1)) as [hi|] eqn:Ehi; [|apply nth_error_None in Ehi; lia].
    exists lo, hi. split; [reflexivity|]. split; [reflexivity|].
    intros t Ht. apply In_nth_error in Ht. destruct Ht as [i Hi].
    destruct (H4 i t Hi) as [w [_ Hw]]. apply eval_no_extrap in Hw.
    destruct Hw as [lo' [hi' [Q1 [Q2 [Q3 _]]]]]. rewrite Elo in Q1. rewrite Ehi in Q2.
    injection Q1 as <-. injection Q2 as <-. exact Q3.
  Qed.

  Lemma interpolate_outside newX oldX oldY kind kw t : oldX <> [] -> In t newX ->
    ((forall x, In x oldX -> t < x - (1 # 10000000000))%Q \/ (forall x, In x oldX -> x + (1 # 10000000000) < t)%Q) ->
    interp newX oldX oldY false kind kw = Err GenericException.
  Proof.
    intros Ne It H. unfold interpolate. destruct (negb _); [reflexivity|].
    destruct newX as [|n0 ns]; [destruct It|]. destruct oldX as [|o0 os]; [contradiction|].
    assert (Hmn : exists m, qmin (n0 :: ns) = Ok m) by (eexists; reflexivity). destruct Hmn as [mn Hmn].
    assert (Hmx : exists m, qmax (n0 :: ns) = Ok m) by (eexists; reflexivity). destruct Hmx as [mx Hmx].
    assert (Hmno : exists m, qmin (o0 :: os) = Ok m) by (eexists; reflexivity). destruct Hmno as [mno Hmno].
    assert (Hmxo : exists m, qmax (o0 :: os) = Ok m) by (eexists; reflexivity). destruct Hmxo as [mxo Hmxo].
    rewrite Hmn, Hmno, Hmx, Hmxo. cbn [bind].
    destruct (qmin_ok _ _ Hmn) as [_ A2]. destruct (qmax_ok _ _ Hmx) as [_ B2].
    destruct (qmin_ok _ _ Hmno) as [C1 _]. destruct (qmax_ok _ _ Hmxo) as [D1 _].
    specialize (A2 t It). specialize (B2 t It).
    destruct (Qlt_bool mn (mno - tol_1e10)) eqn:E1; [reflexivity|].
    assert (E2 : Qlt_bool (mxo + tol_1e10) mx = true); [|now rewrite E2].
    apply Qlt_bool_false in E1. apply Qlt_bool_iff. unfold tol_1e10 in *.
    destruct H as [H|H]; [specialize (H mno C1)|specialize (H mxo D1)]; lra.
  Qed.
  Lemma interpolate_rejects newX oldX oldY allow kind kw :
    length oldX <> length oldY \/ ~ increasing oldX -> exists e, interp newX oldX oldY allow kind kw = Err e.
  Proof.
    intros H. destruct (interp newX oldX oldY allow kind kw) as [r|e] eqn:E; [exfalso|eauto].
    unfold interpolate in E. destruct (Nat.eqb_spec (length oldY) (length oldX)) as [L|L]; cbn [negb] in E; [|discriminate].
    destruct H as [H|H]; [congruence|]. inv_bind E. clear E0. inv_bind E. unfold get_interpolant in E0.
    destruct (all_increasing oldX) eqn:A; cbn [negb fst] in E0; [|discriminate]. apply all_increasing_iff in A. contradiction.
  Qed.

  Lemma increasing_bounds x lo hi : increasing x -> nth_error x 0 = Some lo ->
    nth_error x (length x - 1) = Some hi -> forall a, In a x -> (lo <= a <= hi)%Q.
  Proof.
    intros H Hlo Hhi a Ha. apply In_nth_error in Ha. destruct Ha as [i Hi].
    assert (Li : i < length x) by (apply nth_error_Some; congruence).
    split.
    - destruct i as [|i]; [rewrite Hlo in Hi; injection Hi as ->; lra|].
      apply Qlt_le_weak. eapply (H 0 (S i)); eauto. lia.
    - destruct (Nat.eq_dec i (length x - 1)) as [->|N]; [rewrite Hhi in Hi; injection Hi as ->; lra|].
      apply Qlt_le_weak. eapply (H i (length x - 1)); eauto. lia.
  Qed.

  Lemma interpolate_spline_total newX oldX oldY kw lo hi :
    length oldX = length oldY -> increasing oldX -> 2 <= length oldX -> newX <> [] ->
    nth_error oldX 0 = Some lo -> nth_error oldX (length oldX - 1) = Some hi ->
    (forall t, In t newX -> (lo <= t <= hi)%Q) ->
    exists r, interp newX oldX oldY false "spline" kw = Ok r.
  Proof.
    intros HL Hinc H2 Hne Hlo Hhi Hin. unfold interpolate.
    rewrite HL, Nat.eqb_refl. cbn [negb].
    destruct newX as [|t0 ts]; [contradiction|].
    assert (Hmn : exists m, qmin (t0 :: ts) = Ok m) by (eexists; reflexivity).
    assert (Hmx : exists m, qmax (t0 :: ts) = Ok m) by (eexists; reflexivity).
    destruct Hmn as [mn Hmn]. destruct Hmx as [mx Hmx].
    assert (Hon : oldX <> []) by (destruct oldX; [cbn in H2; lia|discriminate]).
    assert (Hmno : exists m, qmin oldX = Ok m) by (destruct oldX; [contradiction|eexists; reflexivity]).
    assert (Hmxo : exists m, qmax oldX = Ok m) by (destruct oldX; [contradiction|eexists; reflexivity]).
    destruct Hmno as [mno Hmno]. destruct Hmxo as [mxo Hmxo].
    rewrite Hmn, Hmno, Hmx, Hmxo. cbn [bind].
    destruct (qmin_ok _ _ Hmn) as [A1 A2]. destruct (qmax_ok _ _ Hmx) as [B1 B2].
    destruct (qmin_ok _ _ Hmno) as [C1 C2]. destruct (qmax_ok _ _ Hmxo) as [D1 D2].
    assert (T : (0 < tol_1e10)%Q) by reflexivity.
    assert (Mlo : (mno <= lo)%Q) by (apply C2; eapply nth_error_In; eauto).
    assert (Mhi : (hi <= mxo)%Q) by (apply D2; eapply nth_error_In; eauto).
    assert (X1 : Qlt_bool mn (mno - tol_1e10) = false).
    { apply Qlt_bool_false. destruct (Hin mn A1). lra. }
    assert (X2 : Qlt_bool (mxo + tol_1e10) mx = false).
    { apply Qlt_bool_false. destruct (Hin mx B1). lra. }
    rewrite X1, X2. cbn [bind].
    destruct (get_interpolant_spline_total oldX oldY false kw Hinc H2) as [f Hf].
    rewrite Hf. cbn [bind].
    apply get_interpolant_spline_ok in Hf. cbn zeta in Hf. destruct Hf as [_ [_ ->]].
    rewrite fix_ext_false.
    clear Hmn Hmx A1 A2 B1 B2 X1 X2 Hne mn mx.
    induction (t0 :: ts) as [|t l IH]; [cbn; eauto|].
    cbn [eval_all eval_interpolant]. rewrite (proj2 (get_ok oldX 0 lo) Hlo). cbn [bind].
    destruct (last_of_nonempty oldX Hon) as [h' Hh']. rewrite Hh'. cbn [bind].
    apply last_of_nth in Hh'. destruct Hh' as [Hh' _]. rewrite Hhi in Hh'. injection Hh' as <-.
    destruct (Hin t (or_introl eq_refl)) as [P1 P2].
    rewrite (proj2 (Qlt_bool_false t lo) P1), (proj2 (Qlt_bool_false hi t) P2). cbn [orb bind].
    destruct IH as [r Hr]; [intros u Hu; apply Hin; right; exact Hu|].
    rewrite Hr. cbn. eauto.
  Qed.
  Lemma interpolate_returns newX oldX oldY kind kw :
    (exists r, interp newX oldX oldY false kind kw = Ok r) \/ interp newX oldX oldY false kind kw = Err NonFinite ->
    length oldX = length oldY /\ increasing oldX /\ 2 <= length oldX /\ In kind ["spline"; "monotonic_spline"]%string /\ newX <> [] /\
    (forall r, interp newX oldX oldY false kind kw = Ok r -> length r = length newX) /\
    exists lo hi, nth_error oldX 0 = Some lo /\ nth_error oldX (length oldX - 1) = Some hi /\
      forall t, In t newX -> (lo - (1 # 10000000000) <= t <= hi + (1 # 10000000000))%Q.
  Proof.
    intros H. assert (LEN : forall r, interp newX oldX oldY false kind kw = Ok r -> length r = length newX).
    { intros r E. unfold interpolate in E. destruct (negb _) in E; [discriminate|]. inv_bind E. clear E0. inv_bind E. now apply eval_all_map in E. }
    unfold interpolate in H. destruct (Nat.eqb_spec (length oldY) (length oldX)) as [L|L]; cbn [negb] in H; [|destruct H as [[r H]|H]; discriminate].
    destruct newX as [|n0 ns]; [destruct H as [[r H]|H]; discriminate|]. destruct oldX as [|o0 os]; [destruct H as [[r H]|H]; discriminate|].
    assert (Hmn : exists m, qmin (n0 :: ns) = Ok m) by (eexists; reflexivity). destruct Hmn as [mn Hmn].
    assert (Hmx : exists m, qmax (n0 :: ns) = Ok m) by (eexists; reflexivity). destruct Hmx as [mx Hmx].
    assert (Hmno : exists m, qmin (o0 :: os) = Ok m) by (eexists; reflexivity). destruct Hmno as [mno Hmno].
    assert (Hmxo : exists m, qmax (o0 :: os) = Ok m) by (eexists; reflexivity). destruct Hmxo as [mxo Hmxo].
    rewrite Hmn, Hmno, Hmx, Hmxo in H. cbn [bind] in H.
    destruct (qmin_ok _ _ Hmn) as [_ A2]. destruct (qmax_ok _ _ Hmx) as [_ B2].
    destruct (qmin_ok _ _ Hmno) as [_ C2]. destruct (qmax_ok _ _ Hmxo) as [_ D2].
    destruct (Qlt_bool mn (mno - tol_1e10)) eqn:E1; [destruct H as [[r H]|H]; discriminate|]. apply Qlt_bool_false in E1.
    destruct (Qlt_bool (mxo + tol_1e10) mx) eqn:E2; [destruct H as [[r H]|H]; discriminate|]. apply Qlt_bool_false in E2. cbn [bind] in H.
    assert (G : increasing (o0 :: os) /\ 2 <= length (o0 :: os) /\ In kind ["spline"; "monotonic_spline"]%string).
    { unfold get_interpolant in H. destruct (all_increasing (o0 :: os)) eqn:AI; cbn [negb fst bind] in H; [|destruct H as [[r H]|H]; discriminate]. apply all_increasing_iff in AI. split; [exact AI|].
      destruct (String.eqb_spec kind "spline") as [->|_]; [|destruct (String.eqb_spec kind "monotonic_spline") as [->|_]; [|destruct H as [[r H]|H]; discriminate]];
        destruct (Nat.ltb_spec (length (o0 :: os)) 2) as [L2|L2]; try (destruct H as [[r H]|H]; discriminate); (split; [exact L2|]); cbn; auto. }
    destruct G as (G1 & G2 & G3). split; [auto|]. split; [exact G1|]. split; [exact G2|]. split; [exact G3|]. split; [discriminate|]. split; [exact LEN|].
    destruct (nth_error (o0 :: os) 0) as [lo|] eqn:Elo; [|apply nth_error_None in Elo; lia].
    destruct (nth_error (o0 :: os) (length (o0 :: os) - 1)) as [hi|] eqn:Ehi; [|apply nth_error_None in Ehi; lia].
    exists lo, hi. split; [reflexivity|]. split; [reflexivity|]. intros t It. specialize (A2 t It). specialize (B2 t It).
    destruct (qmin_ok _ _ Hmno) as [C1 _]. destruct (qmax_ok _ _ Hmxo) as [D1 _].
    apply (increasing_bounds _ lo hi G1 Elo Ehi) in C1. apply (increasing_bounds _ lo hi G1 Elo Ehi) in D1. unfold tol_1e10 in *. split; lra.
  Qed.
  Lemma interpolate_monotonic newX oldX oldY kw lo hi :
    length oldX = length oldY -> increasing oldX -> 2 <= length oldX -> newX <> [] ->
    nth_error oldX 0 = Some lo -> nth_error oldX (length oldX - 1) = Some hi ->
    (forall t, In t newX -> (lo - (1 # 10000000000) <= t <= hi + (1 # 10000000000))%Q) ->
    ((forall t, In t newX -> (lo <= t <= hi)%Q) -> interp newX oldX oldY false "monotonic_spline" kw = Ok (map (pchip_val oldX oldY) newX)) /\
    ((exists t, In t newX /\ (t < lo \/ hi < t)%Q) -> interp newX oldX oldY false "monotonic_spline" kw = Err NonFinite).
  Proof.
    intros HL Hinc H2 Hne Hlo Hhi Hin.
    assert (Hon : oldX <> []) by (destruct oldX; [cbn in H2; lia|discriminate]).
    assert (R : interp newX oldX oldY false "monotonic_spline" kw = evalN (PchipI oldX oldY false) newX).
    { unfold interpolate. rewrite HL, Nat.eqb_refl. cbn [negb]. destruct newX as [|t0 ts]; [contradiction|].
      assert (Hmn : exists m, qmin (t0 :: ts) = Ok m) by (eexists; reflexivity). assert (Hmx : exists m, qmax (t0 :: ts) = Ok m) by (eexists; reflexivity).
      destruct Hmn as [mn Hmn]. destruct Hmx as [mx Hmx].
      assert (Hmno : exists m, qmin oldX = Ok m) by (destruct oldX; [contradiction|eexists; reflexivity]). assert (Hmxo : exists m, qmax oldX = Ok m) by (destruct oldX; [contradiction|eexists; reflexivity]).
      destruct Hmno as [mno Hmno]. destruct Hmxo as [mxo Hmxo]. rewrite Hmn, Hmno, Hmx, Hmxo. cbn [bind].
      destruct (qmin_ok _ _ Hmn) as [A1 A2]. destruct (qmax_ok _ _ Hmx) as [B1 B2]. destruct (qmin_ok _ _ Hmno) as [C1 C2]. destruct (qmax_ok _ _ Hmxo) as [D1 D2].
      assert (Mlo : (mno <= lo)%Q) by (apply C2; eapply nth_error_In; eauto). assert (Mhi : (hi <= mxo)%Q) by (apply D2; eapply nth_error_In; eauto).
      assert (X1 : Qlt_bool mn (mno - tol_1e10) = false). { apply Qlt_bool_false. destruct (Hin mn A1). unfold tol_1e10. lra. }
      assert (X2 : Qlt_bool (mxo + tol_1e10) mx = false). { apply Qlt_bool_false. destruct (Hin mx B1). unfold tol_1e10. lra. }
      rewrite X1, X2. cbn [bind]. unfold get_interpolant. rewrite (proj2 (all_increasing_iff oldX) Hinc). cbn [negb String.eqb Ascii.eqb Bool.eqb].
      destruct (Nat.ltb_spec (length oldX) 2); [lia|]. reflexivity. }
    assert (EV : forall t, eval1 (PchipI oldX oldY false) t = if Qlt_bool t lo || Qlt_bool hi t then Err NonFinite else Ok (pchip_val oldX oldY t)).
    { intros t. cbn [eval_interpolant]. rewrite (proj2 (get_ok oldX 0 lo) Hlo). cbn [bind]. destruct (last_of_nonempty oldX Hon) as [h' Hh']. rewrite Hh'. cbn [bind].
      apply last_of_nth in Hh'. destruct Hh' as [Hh' _]. rewrite Hhi in Hh'. injection Hh' as <-. reflexivity. }
    rewrite R. clear R Hne Hin. split.
    - intros Hin. induction newX as [|t l IH]; [reflexivity|]. cbn [eval_all map]. rewrite EV. destruct (Hin t (or_introl eq_refl)) as [P1 P2].
      rewrite (proj2 (Qlt_bool_false t lo) P1), (proj2 (Qlt_bool_false hi t) P2). cbn [orb bind]. rewrite IH; [reflexivity|]. intros u Hu. apply Hin. now right.
    - intros (t & It & Ht). induction newX as [|u l IH]; [destruct It|]. cbn [eval_all]. rewrite EV. destruct (Qlt_bool u lo || Qlt_bool hi u) eqn:O; [reflexivity|]. cbn [bind].
      destruct It as [->|It]; [|rewrite (IH It); reflexivity]. exfalso. apply orb_false_iff in O. destruct O as [O1 O2]. apply Qlt_bool_false in O1. apply Qlt_bool_false in O2. destruct Ht; lra.
  Qed.
End Interp.

(** ** quasi-circular fit bounds *)
Lemma box_infeasible times freqs b ta tb :
  nth_error times 0 = Some ta -> nth_error times (length times - 1) = Some tb ->
  quasicircular_box times freqs = Ok b -> (forall f, In f freqs -> (0 < f)%Q) ->
  (0 < ta + tb)%Q -> box_feasible b = false.
Proof.
  intros Ha Hb H Hf Ht. unfold quasicircular_box in H.
  rewrite (proj2 (get_ok times 0 ta) Ha) in H. cbn [bind] in H.
  inv_bind H. apply last_of_nth in E. destruct E as [E _]. rewrite Hb in E. injection E as <-.
  inv_bind H. inv_bind H. destruct (Qeq_bool ((ta + tb) / 2) 0) eqn:Ez; [discriminate|].
  apply Ok_inj in H. subst b. unfold box_feasible. cbn [lo_f0 lo_f1 lo_T hi_f0 hi_f1 hi_T].
  apply qmax_ok in E. apply qmin_ok in E0. destruct E as [E _]. destruct E0 as [E0 _].
  assert (Hv : (0 < v)%Q) by (apply Hf; exact E). assert (Hv0 : (0 < v0)%Q) by (apply Hf; exact E0).
  assert (X : Qlt_bool 0 (10 * ((v + v0) / 2) / - ((ta + tb) / 2)) = false).
  { apply Qlt_bool_false.
    setoid_replace (10 * ((v + v0) / 2) / - ((ta + tb) / 2))%Q with (- (10 * (v + v0) / (ta + tb)))%Q
      by (field; lra).
    assert (0 <= 10 * (v + v0) / (ta + tb))%Q; [|lra].
    apply Qle_shift_div_l; lra. }
  rewrite X. rewrite andb_false_r. reflexivity.
Qed.
Lemma box_feasible_before_zero times freqs b ta tb :
  nth_error times 0 = Some ta -> nth_error times (length times - 1) = Some tb ->
  quasicircular_box times freqs = Ok b -> (forall f, In f freqs -> (0 < f)%Q) ->
  (ta < tb)%Q -> (tb <= 0)%Q -> box_feasible b = true.
Proof.
  intros Ha Hb H Hf Ht Hn. unfold quasicircular_box in H.
  rewrite (proj2 (get_ok times 0 ta) Ha) in H. cbn [bind] in H.
  inv_bind H. apply last_of_nth in E. destruct E as [E _]. rewrite Hb in E. injection E as <-.
  inv_bind H. inv_bind H. destruct (Qeq_bool ((ta + tb) / 2) 0) eqn:Ez; [discriminate|].
  apply Ok_inj in H. subst b. unfold box_feasible. cbn [lo_f0 lo_f1 lo_T hi_f0 hi_f1 hi_T].
  apply qmax_ok in E. apply qmin_ok in E0. destruct E as [E _]. destruct E0 as [E0 _].
  assert (Hv : (0 < v)%Q) by (apply Hf; exact E). assert (Hv0 : (0 < v0)%Q) by (apply Hf; exact E0).
  apply andb_true_intro. split; [apply andb_true_intro; split|]; apply Qlt_bool_iff.
  - setoid_replace (10 * ((v + v0) / 2))%Q with (5 * (v + v0))%Q by field. lra.
  - setoid_replace (10 * ((v + v0) / 2) / - ((ta + tb) / 2))%Q with (10 * (v + v0) / - (ta + tb))%Q
      by (field; lra).
    apply Qlt_shift_div_l; lra.
  - setoid_replace (- ((ta + tb) / 2))%Q with ((1#2) * - (ta + tb))%Q by field. lra.
Qed.
