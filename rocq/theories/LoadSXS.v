(** What loading an SXS waveform reads and returns. *)
From Coq Require Import Qabs Lia Lqa.
From Verif Require Import Base BaseLemmas UtilsModel UtilsSpec UtilsLemmas MeasureModel DataModel DataLemmas2 HelperModel HelperSpec HelperLemmas LoadModel LoadSpec LoadLemmas LoadKeys LoadWave LoadLAL LoadZero LoadSpins LoadNR.
Open Scope string_scope.
Open Scope nat_scope.

Lemma arange_uniform a b dt g : arange a b dt = Ok g -> uniform dt g /\ forall x, starts g x -> x = a.
Proof.
  unfold arange. destruct (Qeq_bool dt 0); [discriminate|]. intros H. apply Ok_inj in H. subst g. generalize (Z.to_nat (q_ceil ((b - a) / dt))). intros n. split.
  - revert a. induction n as [|n IH]; intros a i x y X Y; [destruct i; discriminate|]. cbn [arange_from] in X, Y. destruct i as [|i].
    + cbn [nth_error] in X, Y. destruct n as [|n]; [discriminate|]. cbn [arange_from nth_error] in Y. apply Some_inj in X, Y. subst. ring.
    + exact (IH _ _ _ _ X Y).
  - intros x X. destruct n; [discriminate|]. cbn in X. now apply Some_inj in X.
Qed.
Lemma resample_ok S g time y r : resample S g time y = Ok r -> length r = length g /\ exists k, r = map (so_spline S time y k) g.
Proof.
  unfold resample. intros H. split; [|exact (interpolate_spline_value _ _ _ _ _ _ _ H)].
  destruct (interpolate_spline_safe _ _ _ _ _ _ _ H) as (_ & _ & _ & L & _). exact L.
Qed.
Lemma resample_mode_ok S g time h h1 : resample_mode S g time h = Ok h1 -> length h1 = length g /\ interpolated S time h g h1.
Proof.
  unfold resample_mode. intros H. apply bind_ok in H. destruct H as (re & R & H). apply bind_ok in H. destruct H as (im & I & H). apply Ok_inj in H. subst h1.
  apply resample_ok in R, I. destruct R as [LR [k R]], I as [LI [k' I]]. split; [etransitivity; [exact (combine_length re im)|lia]|]. exists k, k'. rewrite <- R, <- I.
  assert (L : length re = length im) by lia. clear - L. revert im L. induction re as [|a re IH]; intros [|b im] L; try discriminate; [split; reflexivity|].
  cbn [combine map fst snd]. destruct (IH im) as [A B]; [cbn in L; lia|]. split; f_equal; assumption.
Qed.
Lemma dset_in {A} (d : mdict A) lm v k x : In (k, x) (dset mode_eqb d lm v) -> (k = lm /\ x = v) \/ In (k, x) d.
Proof.
  induction d as [|[k0 v0] d IH]; cbn [dset]; [intros [E|[]]; injection E as <- <-; auto|]. destruct (mode_eqb lm k0) eqn:E.
  - apply mode_eqb_eq in E. subst k0. intros [H|H]; [injection H as <- <-; auto|right; now right].
  - intros [H|H]; [right; now left|]. destruct (IH H) as [|]; auto. right. now right.
Qed.
Lemma dset_keys {A} (d : mdict A) lm v k : In k (map fst (dset mode_eqb d lm v)) <-> k = lm \/ In k (map fst d).
Proof.
  induction d as [|[k0 v0] d IH]; cbn [dset map fst In]; [intuition|]. destruct (mode_eqb lm k0) eqn:E; cbn [map fst In].
  - apply mode_eqb_eq in E. subst k0. intuition.
  - rewrite IH. intuition.
Qed.

Section SXS.
  Variable S : sources.
  (** d has the modes l, each interpolated from the mode of the file *)
  Definition from_file (file : mode -> list cnum -> Prop) (time grid : list Q) (l : list mode) (d : modes) : Prop :=
    (forall lm, In lm (map fst d) <-> In lm l) /\ forall lm h1, In (lm, h1) d -> length h1 = length grid /\ exists h, file lm h /\ interpolated S time h grid h1.
  Lemma new_modes_ok data t time : forall l acc l0 d, from_file (fun lm h => data lm = Ok h) time t l0 acc -> new_modes S data t time acc l = Ok d ->
    from_file (fun lm h => data lm = Ok h) time t (l0 ++ l) d.
  Proof.
    induction l as [|lm l IH]; intros acc l0 d F H; cbn [new_modes] in H; [apply Ok_inj in H; subst; now rewrite app_nil_r|].
    apply bind_ok in H. destruct H as (h & Dh & H). apply bind_ok in H. destruct H as (x & X & H). replace (l0 ++ lm :: l)%list with ((l0 ++ [lm]) ++ l)%list by now rewrite <- app_assoc.
    refine (IH _ _ _ _ H). destruct F as [F1 F2]. split.
    - intros k. rewrite dset_keys, in_app_iff, F1. cbn. intuition.
    - intros k h1 I. apply dset_in in I. destruct I as [[-> ->]|I]; [|now apply F2]. apply resample_mode_ok in X. destruct X as [L I]. split; [exact L|]. eauto.
  Qed.
  Lemma old_modes_ok dir order dt : forall l tt acc l0 r d, old_modes S dir order dt tt acc l = Ok (r, d) ->
    (match tt with Some p => from_file (fun lm h => exists t, so_old S dir order lm = Ok (t, h)) (fst p) (snd p) l0 acc | None => l0 = [] /\ acc = [] end) ->
    match r with
    | Some p => from_file (fun lm h => exists t, so_old S dir order lm = Ok (t, h)) (fst p) (snd p) (l0 ++ l) d /\
                match tt with
                | Some p0 => p = p0
                | None => exists lm0 rest h0 a b, l = lm0 :: rest /\ so_old S dir order lm0 = Ok (fst p, h0) /\ get (fst p) 0 = Ok a /\ last_of (fst p) = Ok b /\ arange a b dt = Ok (snd p)
                end
    | None => True
    end.
  Proof.
    induction l as [|lm l IH]; intros tt acc l0 r d H F; cbn [old_modes] in H.
    - apply Ok_inj in H. injection H as <- <-. destruct tt as [p|]; [|exact I]. rewrite app_nil_r. auto.
    - apply bind_ok in H. destruct H as ([tx hx] & X & H). cbn [fst snd] in H. apply bind_ok in H. destruct H as (tt' & T & H). apply bind_ok in H. destruct H as (h1 & H1 & H).
      apply resample_mode_ok in H1. destruct H1 as [L1 I1].
      assert (F' : from_file (fun lm h => exists t, so_old S dir order lm = Ok (t, h)) (fst tt') (snd tt') (l0 ++ [lm]) (dset mode_eqb acc lm h1)).
      { split.
        - intros k. rewrite dset_keys, in_app_iff. destruct tt as [p|]; [destruct F as [F1 _]; rewrite F1; cbn; intuition|]. destruct F as [-> ->]. cbn. intuition.
        - intros k h2 I. apply dset_in in I. destruct I as [[-> ->]|I]; [split; [exact L1|]; eauto|]. destruct tt as [p|]; [|destruct F as [_ ->]; destruct I].
          apply Ok_inj in T. subst tt'. now apply F. }
      specialize (IH (Some tt') _ (l0 ++ [lm])%list r d H F'). replace (l0 ++ lm :: l)%list with ((l0 ++ [lm]) ++ l)%list by now rewrite <- app_assoc.
      destruct r as [p|]; [|exact I]. destruct IH as [A ->]. split; [exact A|]. destruct tt as [p0|]; [now apply Ok_inj in T|].
      apply bind_ok in T. destruct T as (a & GA & T). apply bind_ok in T. destruct T as (b & GB & T). apply bind_ok in T. destruct T as (g & AR & T). apply Ok_inj in T. subst tt'. cbn [fst snd].
      exists lm, l, hx, a, b. auto.
  Qed.

  (** what the first step gives *)
  Definition sxs_file_mode (latest : bool) (u : lkwargs) (dir : string) (order : option lv) (l : list mode) (lm : mode) (time : list Q) (h : list cnum) : Prop :=
    if latest then catalog_mode S u dir order lm time h else old_mode S dir order l lm time h.
  Definition sxs_name (latest : bool) : string := if latest then "SXSCatalog" else "SXSCatalog_old".
  Lemma asked_of o u kw k v : check_kwargs_and_set_defaults (Some u) (published o) = Ok kw -> slookup kw k = Some v -> asked o u k v.
  Proof. intros C H. destruct (checked _ _ _ (published_nodup o) C) as [_ L]. unfold asked. now rewrite <- L. Qed.
  Lemma get_modes_ok (latest : bool) u kw t d : check_kwargs_and_set_defaults (Some u) (published (sxs_name latest)) = Ok kw ->
    snd (if latest then get_modes_new S kw else lift (get_modes_old S kw)) = Ok (t, d) ->
    exists dir order l dt time, slookup kw "data_dir" = Some (Some (AStr dir)) /\ slookup kw "extrap_order" = Some order /\ slookup kw "mode_array" = Some (Some (AModes l)) /\
      slookup kw "deltaTOverM" = Some (Some (ANum dt)) /\ uniform dt t /\ (forall x, starts t x -> starts time x) /\
      from_file (fun lm h => sxs_file_mode latest u dir order l lm time h) time t l d.
  Proof.
    intros C H. destruct latest; cbn [sxs_name] in C.
    - unfold get_modes_new in H. apply lbind_inv in H. destruct H as (dir & DIR & H). apply lbind_inv in H. destruct H as (order & OR & H). apply lbind_inv in H. destruct H as (w & W & H).
      apply lbind_inv in H. destruct H as (keep & KE & H). apply lbind_inv in H. destruct H as (data & DA & H). apply lbind_inv in H. destruct H as (dt & DT & H).
      apply lbind_inv in H. destruct H as (a & A & H). apply lbind_inv in H. destruct H as (b & B & H). apply lbind_inv in H. destruct H as (g & G & H). apply lbind_inv in H. destruct H as (l & L & H).
      apply lbind_inv in H. destruct H as (dd & DD & H). cbn [lift lret snd] in *. apply Ok_inj in H. injection H as <- <-.
      apply str_get in DIR. apply sget_ok in OR. apply num_get in DT. apply true_get in KE. destruct KE as (kv & KV & KE). apply bind_ok in L. destruct L as (lv0 & LV & L). apply sget_ok in LV.
      destruct lv0 as [[]|]; try discriminate. apply Ok_inj in L. subst l0. destruct (arange_uniform _ _ _ _ G) as [U ST].
      exists dir, order, l, dt, (st_t w). do 4 (split; [assumption|]). split; [exact U|]. split; [intros x X; apply ST in X; subst x; now apply start_get|].
      assert (F0 : from_file (fun lm h => data lm = Ok h) (st_t w) g [] []) by (split; [cbn; tauto|intros ? ? []]).
      pose proof (new_modes_ok data g (st_t w) l [] [] dd F0 DD) as [F1 F2]. cbn [app] in F1. split; [exact F1|]. intros lm h1 I. destruct (F2 lm h1 I) as (LL & h & Dh & IN). split; [exact LL|].
      exists h. split; [|exact IN]. cbn [sxs_file_mode]. exists w. split; [exact W|]. split; [reflexivity|]. destruct keep.
      + left. split; [exists kv; split; [exact (asked_of _ _ _ _ _ C KV)|exact KE]|]. apply Ok_inj in DA. now subst data.
      + right. split; [exists kv; split; [exact (asked_of _ _ _ _ _ C KV)|exact KE]|].
        apply lbind_inv in DA. destruct DA as (m & M & DA). apply lbind_inv in DA. destruct DA as (p & P & DA). apply lbind_inv in DA. destruct DA as (rx & RX & DA). cbn [lift lret snd] in *. apply Ok_inj in DA. subst data.
        cbv beta in Dh. apply bind_ok in Dh. destruct Dh as (ha & HA & Dh). apply bind_ok in Dh. destruct Dh as (hb & HB & Dh). destruct (Nat.eqb_spec (length ha) (length hb)) as [EL|EL]; [|discriminate].
        apply Ok_inj in Dh. subst h. exists m, ha, hb. do 2 (split; [assumption|]). split; [|auto].
        apply num_get in RX. assert (E : slookup p "t_relax" = Some (Some (ANum (md_relax m)))).
        { unfold params_of_metadata in P. destruct (Qeq_bool (md_m2 m) 0); [discriminate|]. cbv zeta in P. apply lbind_inv in P. destruct P as (qq & _ & P). cbn [lret snd] in P. apply Ok_inj in P. now subst p. }
        rewrite E in RX. injection RX as <-. exact HB.
    - cbn [lift snd] in H. unfold get_modes_old in H. apply bind_ok in H. destruct H as (dir & DIR & H). apply bind_ok in H. destruct H as (order & OR & H). apply bind_ok in H. destruct H as (l & L & H).
      apply bind_ok in H. destruct H as (dt & DT & H). apply bind_ok in H. destruct H as ([r d0] & OM & H). cbn [fst snd] in H. destruct r as [[time g]|]; [|discriminate]. apply Ok_inj in H. cbn [snd] in H. injection H as <- <-.
      apply str_get in DIR. apply sget_ok in OR. apply num_get in DT. apply bind_ok in L. destruct L as (lv0 & LV & L). apply sget_ok in LV.
      destruct lv0 as [[]|]; try discriminate. apply Ok_inj in L. subst l0. pose proof (old_modes_ok _ _ _ _ _ _ [] _ _ OM (conj eq_refl eq_refl)) as X. cbn [fst snd app] in X.
      destruct X as [[F1 F2] (lm0 & rest & h0 & a & b & El & SO & GA & GB & AR)]. destruct (arange_uniform _ _ _ _ AR) as [U ST].
      exists dir, order, l, dt, time. do 4 (split; [assumption|]). split; [exact U|]. split; [intros x X; apply ST in X; subst x; now apply start_get|].
      split; [exact F1|]. intros lm h1 I. destruct (F2 lm h1 I) as (LL & h & Dh & IN). split; [exact LL|]. exists h. split; [|exact IN]. cbn [sxs_file_mode]. split; [exact Dh|]. eauto 6.
  Qed.
End SXS.
