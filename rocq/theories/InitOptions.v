(** Proofs about the options of measure_eccentricity (extra_kwargs). *)
From Verif Require Import Base BaseLemmas UtilsModel UtilsSpec UtilsLemmas ExtremaModel RationalModel MeasureModel MeasureSpec LevelLemmas
  SegmentModel SegmentSpec SegmentLemmas DataModel DataSpec DataLemmas DataLemmas2 InitModel InitSpec InitLemmas.
Open Scope string_scope.
Open Scope nat_scope.

(** ** completing a dictionary *)
Lemma sget_lookup {V} (d : sdict V) k : sget d k = match slookup d k with Some v => Ok v | None => Err KeyError end.
Proof. reflexivity. Qed.
Lemma fill_lookup {V} (D : sdict V) : forall (u : sdict V) k,
  slookup (fill_defaults u D) k = match slookup u k with Some v => Some v | None => slookup D k end.
Proof.
  induction D as [|[x v] D IH]; intros u k.
  - unfold fill_defaults. cbn [fold_left]. unfold slookup at 3. cbn [dlookup]. now destruct (slookup u k).
  - unfold fill_defaults in *. cbn [fold_left fst snd]. rewrite IH. destruct (smem u x) eqn:M.
    + destruct (slookup u k) eqn:E; [reflexivity|]. unfold slookup at 2. cbn [dlookup]. destruct (String.eqb k x) eqn:X; [|reflexivity].
      apply String.eqb_eq in X. subst x. apply smem_in in M. apply slookup_none in E. now elim E.
    + rewrite slookup_sset. destruct (String.eqb k x) eqn:X.
      * apply String.eqb_eq in X. subst x. apply smem_false in M. apply slookup_none in M. rewrite M. unfold slookup. cbn [dlookup].
        now rewrite String.eqb_refl.
      * destruct (slookup u k); [reflexivity|]. unfold slookup. cbn [dlookup]. now rewrite X.
Qed.
Lemma kwargs_ok {V} (user : option (sdict V)) D r : check_kwargs_and_set_defaults user D = Ok r ->
  (forall k, has match user with None => [] | Some u => u end k -> has D k) /\
  r = fill_defaults match user with None => [] | Some u => u end D.
Proof.
  unfold check_kwargs_and_set_defaults. destruct (forallb _ _) eqn:F; intros H; [|discriminate]. apply Ok_inj in H. split; [|now subst].
  intros k Hk. rewrite forallb_forall in F. unfold has in *. apply smem_in. now apply F.
Qed.
Lemma kwargs_err {V} (user : option (sdict V)) D e : check_kwargs_and_set_defaults user D = Err e -> e = ValueError.
Proof. unfold check_kwargs_and_set_defaults. destruct (forallb _ _); congruence. Qed.

Section S.
  Context {C V : Type} (L : library C V).
  Notation world := (world C).
  Notation measure := (measure_eccentricity L).

  (** ** what happens to the caller's extra_kwargs *)
  Definition keeps {A} (R : world -> world -> Prop) (m : W A) : Prop := forall w, R w (fst (m w)).
  Lemma keeps_bind {A B} (R : world -> world -> Prop) (m : W A) (k : A -> W B) :
    (forall x y z, R x y -> R y z -> R x z) -> keeps R m -> (forall a, keeps R (k a)) -> keeps R (wbind m k).
  Proof.
    intros T Hm Hk w. unfold wbind. cbv zeta. specialize (Hm w). destruct (m w) as [w1 [l [a|e]]]; cbn in *; [|exact Hm].
    apply T with w1; [exact Hm|]. apply Hk.
  Qed.
  Definition same_extra (w w' : world) : Prop := wd_extra w' = wd_extra w.
  (** only filter_kwargs may differ *)
  Definition filter_only (w w' : world) : Prop :=
    match wd_extra w, wd_extra w' with
    | None, None => True
    | Some e, Some e' => forall k, k <> "filter_kwargs" -> slookup e' k = slookup e k
    | _, _ => False
    end.
  Lemma same_trans x y z : same_extra x y -> same_extra y z -> same_extra x z.
  Proof. unfold same_extra. congruence. Qed.
  Lemma filter_trans x y z : filter_only x y -> filter_only y z -> filter_only x z.
  Proof.
    unfold filter_only. destruct (wd_extra x), (wd_extra y), (wd_extra z); auto; try tauto. intros H1 H2 k' Hk. rewrite H2, H1; auto.
  Qed.
  Lemma filter_refl x : filter_only x x.
  Proof. unfold filter_only. destruct (wd_extra x); auto. Qed.
  Lemma same_filter x y : same_extra x y -> filter_only x y.
  Proof. unfold same_extra, filter_only. intros ->. destruct (wd_extra x); auto. Qed.
  Lemma filter_step_only tm d : keeps filter_only (filter_step L tm d).
  Proof.
    intros w. unfold filter_step. cbv zeta. set (given := slookup _ _).
    assert (X : forall e v, wd_extra w = Some e -> filter_only w {| wd_heap := wd_heap w; wd_extra := Some (sset e "filter_kwargs" v) |}).
    { intros e v E. unfold filter_only. rewrite E. cbn. intros k Hk. rewrite slookup_sset. apply String.eqb_neq in Hk. now rewrite Hk. }
    clearbody given.
    unfold wbind at 1. cbn [wlift lift fst snd]. destruct (match given with Some v => subdict v | None => Ok (Some []) end) as [user|]; [|apply filter_refl].
    unfold wbind at 1. cbn [wlift lift fst snd]. destruct (check_kwargs_and_set_defaults user default_filter) as [fk|]; [|apply filter_refl].
    destruct (wd_extra w) as [e|] eqn:E.
    - unfold wbind at 1. cbv zeta. destruct given as [[]|]; cbn [wret set_extra lret fst snd].
      + unfold wbind at 1. cbv zeta. cbn [wread lift fst snd]. unfold wbind at 1. cbv zeta. cbn [wlog fst snd].
        destruct (snd (lib_filter L _ tm fk)); cbn; [apply X; reflexivity|apply filter_refl].
      + unfold wbind at 1. cbv zeta. cbn [wread lift fst snd]. unfold wbind at 1. cbv zeta. cbn [wlog fst snd].
        destruct (snd (lib_filter L _ tm fk)); cbn; [apply X; reflexivity|apply X; reflexivity].
      + unfold wbind at 1. cbv zeta. cbn [wread lift fst snd]. unfold wbind at 1. cbv zeta. cbn [wlog fst snd].
        destruct (snd (lib_filter L _ tm fk)); cbn; [apply X; reflexivity|apply filter_refl].
    - unfold wbind at 1. cbv zeta. cbn [wret lret fst snd].
        unfold wbind at 1. cbv zeta. cbn [wread lift fst snd]. unfold wbind at 1. cbv zeta. cbn [wlog fst snd].
        destruct (snd (lib_filter L _ tm fk)); apply filter_refl.
  Qed.
  Ltac quietly := intros w'; reflexivity.
  Lemma init_keeps (R : world -> world -> Prop) a p : (forall x y z, R x y -> R y z -> R x z) -> (forall x y, same_extra x y -> R x y) ->
    (a_precessing a = true -> forall tm d, keeps R (filter_step L tm d)) -> keeps R (init L a p).
  Proof.
    intros T S F. unfold init.
    repeat (apply keeps_bind; [exact T| |intros]); try (intros w'; apply S; reflexivity).
    destruct (a_precessing a); [now apply F|]. intros w'. apply S. reflexivity.
  Qed.
  Lemma measure_keeps (R : world -> world -> Prop) m a p : (forall x y z, R x y -> R y z -> R x z) -> (forall x y, same_extra x y -> R x y) ->
    (a_precessing a = true -> forall tm d, keeps R (filter_step L tm d)) -> keeps R (measure m a p).
  Proof.
    intros T S F. unfold measure_eccentricity. destruct (existsb _ _); [|intros w'; apply S; reflexivity].
    apply keeps_bind; [exact T| |intros o].
    - unfold build. apply keeps_bind; [exact T|now apply init_keeps|intros b]. cbv zeta.
      repeat (destruct (String.eqb m _); [repeat (apply keeps_bind; [exact T| |intros]); try (intros w'; apply S; reflexivity)|]).
      repeat (apply keeps_bind; [exact T| |intros]); intros w'; apply S; reflexivity.
    - cbv zeta. apply keeps_bind; [exact T| |intros]; intros w'; apply S; reflexivity.
  Qed.
  Lemma extra_unchanged m a p (w : world) : a_precessing a = false -> wd_extra (fst (measure m a p w)) = wd_extra w.
  Proof.
    intros H. apply (measure_keeps same_extra m a p same_trans (fun x y h => h)). congruence.
  Qed.
  Lemma extra_filter_only m a p (w : world) : filter_only w (fst (measure m a p w)).
  Proof. apply measure_keeps; [exact filter_trans|exact same_filter|]. intros _. exact filter_step_only. Qed.

  (** ** unknown options *)
  Lemma filter_part_ok a pd gw (w w' : world) l fl extra : filter_part L a pd gw w = (w', (l, Ok (fl, extra))) ->
    (a_precessing a = false /\ w' = w /\ extra = wd_extra w /\ l = [] /\
     fl = {| fl_amp := fst (fst gw); fl_phase := snd (fst gw); fl_omega := snd gw; fl_omega_filtered := false |}) \/
    (a_precessing a = true /\ exists user fk, 
       match slookup match wd_extra w with None => [] | Some e => e end "filter_kwargs" with
       | None => user = [] | Some (Leaf LNone) => user = [] | Some (Dict d) => user = d | _ => False end /\
       check_kwargs_and_set_defaults (Some user) default_filter = Ok fk /\
       lib_filter L (deepcopy C (wd_heap w) (p_dict C pd)) (p_t_merger C pd) fk = (l, Ok fl) /\
       extra = Some (sset match wd_extra w with None => [] | Some e => e end "filter_kwargs" (Dict fk)) /\
       wd_heap w' = wd_heap w /\
       wd_extra w' = match wd_extra w with None => None | Some e => Some (sset e "filter_kwargs" (Dict fk)) end).
  Proof.
    unfold filter_part. destruct (a_precessing a); intros H.
    - right. split; [reflexivity|]. unfold filter_step in H. cbv zeta in H.
      set (e0 := match wd_extra w with Some e => e | None => [] end) in *.
      apply wbind_ok in H. destruct H as (v1 & la1 & lb1 & user & X1 & E & ->). apply wlift_ok in X1. destruct X1 as (-> & -> & X1).
      apply wbind_ok in E. destruct E as (v2 & la2 & lb2 & fk & X2 & E & ->). apply wlift_ok in X2. destruct X2 as (-> & -> & X2).
      apply wbind_ok in E. destruct E as (v3 & la3 & lb3 & ? & X3 & E & ->).
      assert (H3 : wd_heap v3 = wd_heap w /\ la3 = [] /\ (v3 = w \/ exists e, wd_extra w = Some e /\ wd_extra v3 = Some (sset e "filter_kwargs" (Dict fk)))).
      { destruct (wd_extra w) as [e|]; [destruct (slookup e0 "filter_kwargs") as [[]|]|]; cbn in X3; injection X3 as <- <- _; cbn; eauto 10. }
      destruct H3 as (H3 & -> & H3').
      apply wbind_ok in E. destruct E as (v4 & la4 & lb4 & copy & X4 & E & ->). apply wread_ok in X4. destruct X4 as (-> & -> & X4).
      apply Ok_inj in X4. subst copy.
      apply wbind_ok in E. destruct E as (v5 & la5 & lb5 & fl' & X5 & E & ->). apply wlog_ok in X5. destruct X5 as (-> & -> & X5).
      apply wbind_ok in E. destruct E as (v6 & la6 & lb6 & ? & X6 & E & ->).
      apply wret_ok in E. destruct E as (-> & -> & E). injection E as -> ->.
      exists match user with None => [] | Some u => u end, fk.
      split. { change (slookup match wd_extra w with None => [] | Some e => e end "filter_kwargs") with (slookup e0 "filter_kwargs").
        destruct (slookup e0 "filter_kwargs") as [[[]|]|]; cbn in X1; try discriminate; apply Ok_inj in X1; now subst user. }
      split. { revert X2. unfold check_kwargs_and_set_defaults. destruct user; auto. }
      rewrite <- H3. split. { destruct (lib_filter L (deepcopy C (wd_heap v3) (p_dict C pd)) (p_t_merger C pd) fk) as [lf rf]. cbn in *. subst rf.
        destruct (wd_extra w) in X6; injection X6 as <- <- _; now rewrite !app_nil_r. }
      split; [reflexivity|].
      destruct (wd_extra w) as [e|] eqn:Ew; cbn in X6; injection X6 as <- <- _; cbn; (split; [reflexivity|]).
      + unfold e0. reflexivity.
      + destruct H3' as [->|(e & ? & _)]; [exact Ew|discriminate].
    - left. injection H as <- <- <- <-. auto.
  Qed.
  Lemma option_keys_default k : has default_extra k <-> In k option_keys.
  Proof. unfold has. cbn. tauto. Qed.
  Lemma options_known m a p (w w' : world) l d e k : measure m a p w = (w', (l, Ok d)) -> wd_extra w = Some e -> has e k -> In k option_keys.
  Proof.
    intros H He Hk. apply measure_ok in H. destruct H as (_ & o & s & r & l1 & l2 & H & _). apply build_method in H.
    destruct H as (_ & w1 & l3 & H & _). apply init_ok in H.
    destruct H as (rf & pd & t & gw & fl & extra & ek & n & wv & op & user & rs & m1 & m2 & h' & _ & _ & _ & _ & _ & _ & F & _ & K & _).
    apply kwargs_ok in K. destruct K as [K _]. apply option_keys_default. apply K.
    apply filter_part_ok in F. cbn [wd_extra] in F. rewrite He in F. destruct F as [(_ & _ & -> & _)|(_ & u & fk & _ & _ & _ & -> & _)].
    - exact Hk.
    - unfold has. change (map fst (sset e "filter_kwargs" (Dict fk))) with (dkeys (sset e "filter_kwargs" (Dict fk))).
      apply smem_in. unfold smem, dmem. fold (slookup (sset e "filter_kwargs" (Dict fk)) k). rewrite slookup_sset.
      destruct (String.eqb k _); [reflexivity|]. unfold has in Hk. change (map fst e) with (dkeys e) in Hk. apply smem_in in Hk. exact Hk.
  Qed.
  Lemma filter_completed m a p (w w' : world) l d e : measure m a p w = (w', (l, Ok d)) -> a_precessing a = true -> wd_extra w = Some e ->
    exists e' fk, wd_extra w' = Some e' /\ slookup e' "filter_kwargs" = Some (Dict fk) /\
      (forall k, k <> "filter_kwargs" -> slookup e' k = slookup e k) /\
      (forall k v, slookup fk k = Some v <->
         match slookup e "filter_kwargs" with Some (Dict u) => slookup u k = Some v \/ (slookup u k = None /\ slookup default_filter k = Some v)
         | _ => slookup default_filter k = Some v end).
  Proof.
    intros H Hp He. apply measure_ok in H. destruct H as (_ & o & s & r & l1 & l2 & H & _). apply build_method in H.
    destruct H as (_ & w1 & l3 & H & ->). apply init_ok in H.
    destruct H as (rf & pd & t & gw & fl & extra & ek & n & wv & op & user & rs & m1 & m2 & h' & _ & _ & _ & _ & _ & _ & F & _ & K & _).
    apply filter_part_ok in F. cbn [wd_extra] in F. rewrite He in F. destruct F as [(F & _)|(_ & u & fk & U & Kf & _ & _ & _ & ->)]; [congruence|].
    exists (sset e "filter_kwargs" (Dict fk)), fk. split; [reflexivity|]. split. { rewrite slookup_sset. now rewrite String.eqb_refl. }
    split. { intros k Hk. rewrite slookup_sset. apply String.eqb_neq in Hk. now rewrite Hk. }
    apply kwargs_ok in Kf. destruct Kf as [_ ->]. intros k v. rewrite fill_lookup.
    destruct (slookup e "filter_kwargs") as [[[]|du]|]; try (elim U; fail); subst u; try (cbn; tauto).
    destruct (slookup du k); split; intros X; auto; [destruct X as [X|[X _]]; congruence|destruct X as [X|[_ X]]; congruence].
  Qed.

  (** ** an unknown interpolation method *)
  Lemma options_interp ek width op : read_options ek width = Ok op -> exists v,
    slookup ek "omega_gw_extrema_interpolation_method" = Some v /\ (v = Leaf (LStr "spline") \/ v = Leaf (LStr "rational_fit")).
  Proof.
    unfold read_options. intros O. inv_bind O. inv_bind O. clear O E. inv_bind E0. rewrite sget_lookup in E.
    destruct (slookup ek _) as [x|]; [|discriminate]. apply Ok_inj in E. subst x. exists v1. split; [reflexivity|]. clear -E0.
    destruct v1 as [[]|]; try discriminate. cbn in E0. destruct (String.eqb s "spline") eqn:S1; [apply String.eqb_eq in S1; subst; auto|].
    destruct (String.eqb s "rational_fit") eqn:S2; [apply String.eqb_eq in S2; subst; auto|discriminate].
  Qed.
  Lemma interpolation_known m a p (w w' : world) l d e v : measure m a p w = (w', (l, Ok d)) -> wd_extra w = Some e ->
    slookup e "omega_gw_extrema_interpolation_method" = Some v -> v = Leaf (LStr "spline") \/ v = Leaf (LStr "rational_fit").
  Proof.
    intros H He Hv. apply measure_ok in H. destruct H as (_ & o & s & r & l1 & l2 & H & _). apply build_method in H.
    destruct H as (_ & w1 & l3 & H & _). apply init_ok in H.
    destruct H as (rf & pd & t & gw & fl & extra & ek & n & wv & op & user & rs & m1 & m2 & h' & _ & _ & _ & _ & _ & _ & F & _ & K & _ & _ & O & _).
    apply kwargs_ok in K. destruct K as [_ ->].
    assert (X : slookup match extra with Some u => u | None => [] end "omega_gw_extrema_interpolation_method" = Some v).
    { apply filter_part_ok in F. cbn [wd_extra] in F. rewrite He in F. destruct F as [(_ & _ & -> & _)|(_ & u & fk & _ & _ & _ & -> & _)]; [exact Hv|].
      rewrite slookup_sset. cbn. exact Hv. }
    apply options_interp in O. destruct O as (v' & O & O2). rewrite fill_lookup in O. destruct extra as [eu|]; [|discriminate X].
    rewrite X in O. apply Some_inj in O. now subst v'.
  Qed.
End S.
