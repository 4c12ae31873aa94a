(** A number as reference gives the same measurement as the array with that one entry. *)
From Verif Require Import Base BaseLemmas UtilsModel UtilsSpec UtilsLemmas ExtremaModel RationalModel MeasureModel MeasureSpec LevelLemmas
  MeasureLemmas MeasureResults SegmentModel DataModel DataSpec DataLemmas InitModel InitSpec InitLemmas.
Open Scope string_scope.
Open Scope nat_scope.

(** ** one computation step by step beside another *)
Definition relat {A B} (R : A -> B -> Prop) (m1 : act A) (m2 : act B) (s : state) : Prop :=
  fst (m1 s) = fst (m2 s) /\ fst (snd (m1 s)) = fst (snd (m2 s)) /\
  match snd (snd (m1 s)), snd (snd (m2 s)) with Ok a, Ok b => R a b | Err e, Err e2 => e = e2 | _, _ => False end.
Lemma relat_bind {A B1 B2} (R : B1 -> B2 -> Prop) (m m' : act A) (k1 : A -> act B1) (k2 : A -> act B2) s : m = m' ->
  (forall a s1, run m s = (s1, Ok a) -> relat R (k1 a) (k2 a) s1) -> relat R (abind m k1) (abind m' k2) s.
Proof.
  intros <- H. unfold relat, abind, run in *. destruct (m s) as [l [s1 [a|e]]] eqn:E; cbn; [|auto].
  specialize (H a s1 eq_refl). destruct (k1 a s1) as [l1 [s2 r1]], (k2 a s1) as [l2 [s3 r2]]. cbn in *.
  destruct H as (-> & -> & H). auto.
Qed.
Lemma relat_refl {A} (R : A -> A -> Prop) (m m' : act A) s : m = m' -> (forall a, R a a) -> relat R m m' s.
Proof. intros <- H. unfold relat. do 2 (split; [reflexivity|]). destruct (snd (snd (m s))); auto. Qed.

Section S.
  Context {V : Type}.
  Variables (ecc_of : Q -> Q -> V) (vzero : V) (vneg : V -> bool) (find : bool -> res (list nat)).
  Variables (sv : list Q -> list Q -> nat -> Q -> Q) (pv : list Q -> list Q -> Q -> Q)
            (rfit : list Q -> list Q -> Z * Z -> res curve) (slope : list Q -> list V -> list bool).

  Definition scalar_as (b : bool) (c : config) : config :=
    {| c_t := c_t c; c_data_t := c_data_t c; c_phase := c_phase c; c_omega := c_omega c; c_ref := c_ref c;
       c_scalar := b; c_precessing := c_precessing c; c_filtered := c_filtered c;
       c_midpoints := c_midpoints c; c_return_zero := c_return_zero c; c_interp := c_interp c;
       c_average := c_average c; c_use_only := c_use_only c; c_special := c_special c; c_general := c_general c;
       c_zeroecc := c_zeroecc c |}.
  Definition same_out {A} (x y : out A) : Prop := exists a, x = Scalar a /\ y = Arr [a].
  Definition same_opt {A} (x y : option (out A)) : Prop :=
    match x, y with Some a, Some b => same_out a b | None, None => True | _, _ => False end.
  Definition same_result (r1 r2 : result V) : Prop :=
    same_out (r_eccentricity r1) (r_eccentricity r2) /\ same_out (r_mean_anomaly r1) (r_mean_anomaly r2) /\
    same_opt (r_tref_out r1) (r_tref_out r2) /\ same_opt (r_fref_out r1) (r_fref_out r2).

  Lemma length_1 {A} (l : list A) : length l = 1 -> exists a, l = [a].
  Proof. destruct l as [|a [|b l]]; try discriminate. eauto. Qed.
  Lemma result_rel c (ecc : list V) mean ref s : length ecc = 1 -> length mean = 1 -> length ref = 1 ->
    relat same_result (alift (make_result (scalar_as true c) ecc mean ref)) (alift (make_result (scalar_as false c) ecc mean ref)) s.
  Proof.
    intros H1 H2 H3. apply length_1 in H1, H2, H3. destruct H1 as [e ->], H2 as [m ->], H3 as [r ->].
    unfold relat, make_result, same_result, same_opt, same_out. cbn. destruct (c_ref c); cbn; eauto 12.
  Qed.
  Lemma keeps_exactly_le {A} (P : A -> Prop) l out : keeps_exactly P l out -> length out <= length l.
  Proof. induction 1; cbn; lia. Qed.
  Lemma filter_le {A} (f : A -> bool) l : length (filter f l) <= length l.
  Proof. induction l as [|x l IH]; cbn; [lia|]. destruct (f x); cbn; lia. Qed.

  Lemma from_rel level c p a s : length (requested c) = 1 ->
    relat same_result (measure_from_extrema ecc_of vneg sv pv rfit slope level (scalar_as true c) p a)
                      (measure_from_extrema ecc_of vneg sv pv rfit slope level (scalar_as false c) p a) s.
  Proof.
    intros Hl. unfold measure_from_extrema. cbv zeta.
    do 6 (apply relat_bind; [reflexivity|]; intros ? ? _).
    do 6 (apply relat_bind; [reflexivity|]; intros ? ? _).
    apply relat_bind; [reflexivity|]. intros tf u1 E1. set (inside := fun t => _ && _). set (tout := filter inside (fst tf)) in *.
    apply relat_bind; [reflexivity|]. intros [] u2 E2.
    apply relat_bind; [reflexivity|]. intros [] u3 E3.
    do 3 (apply relat_bind; [reflexivity|]; intros ? ? _).
    apply relat_bind; [reflexivity|]. intros ecc u4 E4.
    apply relat_bind; [reflexivity|]. intros mean u5 E5.
    do 2 (apply relat_bind; [reflexivity|]; intros ? ? _).
    assert (NE : tout <> []).
    { intros X. rewrite X in E3. apply run_bind_ok in E3. destruct E3 as (? & ? & _ & E3). rewrite run_lift in E3. discriminate. }
    assert (L1 : length tout = 1 /\ length (match c_ref c with TimeRef _ => tout | FreqRef _ => snd tf end) = 1).
    { assert (0 < length tout) by (destruct tout; [contradiction|cbn; lia]).
      cbn [scalar_as c_ref] in E1, E2. unfold requested in Hl. destruct (c_ref c) as [tr|fr].
      - injection E1 as <- <-. cbn [fst] in tout. pose proof (filter_le inside tr : length tout <= _). lia.
      - destruct tf as [tr fo].
        apply tref_inv in E1. destruct E1 as (_ & tv0 & tv & lo & hi & _ & _ & K & _). apply keeps_exactly_le in K. cbn [snd] in *.
        destruct (length fo =? length tout) eqn:X; [|discriminate]. apply Nat.eqb_eq in X. lia. }
    destruct L1 as [L1 L2]. rewrite run_lift in E4. rewrite run_lift in E5. injection E4 as _ E4. injection E5 as _ E5.
    apply result_rel; [| |exact L2].
    - unfold compute_eccentricity, bind in E4. destruct (check_input_limits tout (Qmaxb a4 a5) (Qminb a2 a3)); [|discriminate].
      destruct (eval_curve a7 tout) as [vp|] eqn:Vp; [|discriminate]. destruct (eval_curve a10 tout) as [va|] eqn:Va; [|discriminate].
      apply Ok_inj in E4. subst ecc. apply eval_curve_spec in Vp, Va. apply Forall2_len in Vp, Va. rewrite map2_length. lia.
    - unfold compute_mean_anomaly in E5. inv_bind E5. apply Ok_inj in E5. subst mean. rewrite map_length. exact L1.
  Qed.

  Lemma measure_rel level c s : length (requested c) = 1 ->
    relat same_result (measure_ecc ecc_of vzero vneg find sv pv rfit slope level (scalar_as true c))
                      (measure_ecc ecc_of vzero vneg find sv pv rfit slope level (scalar_as false c)) s.
  Proof.
    intros Hl. unfold measure_ecc.
    do 4 (apply relat_bind; [reflexivity|]; intros ? ? _).
    cbn [scalar_as c_return_zero]. destruct (_ && _).
    - apply relat_bind; [reflexivity|]. intros [] ? _. unfold zero_result. cbn [scalar_as c_ref]. unfold requested in Hl.
      apply result_rel; try rewrite map_length; exact Hl.
    - do 5 (apply relat_bind; [reflexivity|]; intros ? ? _).
      do 4 (apply relat_bind; [reflexivity|]; intros ? ? _). cbv zeta. now apply from_rel.
  Qed.
End S.

Section W.
  Context {C V : Type} (L : library C V).
  Notation world := (world C).
  Definition relw {A B} (R : A -> B -> Prop) (m1 : W A) (m2 : W B) (w : world) : Prop :=
    fst (m1 w) = fst (m2 w) /\ fst (snd (m1 w)) = fst (snd (m2 w)) /\
    match snd (snd (m1 w)), snd (snd (m2 w)) with Ok a, Ok b => R a b | Err e, Err e2 => e = e2 | _, _ => False end.
  Lemma relw_bind {A1 A2 B1 B2} (P : A1 -> A2 -> Prop) (R : B1 -> B2 -> Prop) (m1 : W A1) (m2 : W A2) (k1 : A1 -> W B1) (k2 : A2 -> W B2) w :
    relw P m1 m2 w -> (forall a b w', P a b -> relw R (k1 a) (k2 b) w') -> relw R (wbind m1 k1) (wbind m2 k2) w.
  Proof.
    unfold relw, wbind. cbv zeta. destruct (m1 w) as [w1 [l1 r1]], (m2 w) as [w2 [l2 r2]]. cbn. intros (-> & -> & H) K.
    destruct r1 as [a|e], r2 as [b|e2]; try (elim H; fail); cbn; [|auto].
    specialize (K a b w2 H). destruct (k1 a w2) as [x1 [y1 z1]], (k2 b w2) as [x2 [y2 z2]]. cbn in *. destruct K as (-> & -> & K). auto.
  Qed.
  Lemma relw_same {A B1 B2} (R : B1 -> B2 -> Prop) (m m' : W A) (k1 : A -> W B1) (k2 : A -> W B2) (w : world) :
    m = m' -> (forall a w', relw R (k1 a) (k2 a) w') -> relw R (wbind m k1) (wbind m' k2) w.
  Proof.
    intros <- K. apply relw_bind with (P := eq).
    - unfold relw. do 2 (split; [reflexivity|]). destruct (snd (snd (m w))); reflexivity.
    - intros a b w' <-. apply K.
  Qed.
  Definition base_as (b : bool) (x : base) : base :=
    {| b_dict_keys := b_dict_keys x; b_wave := b_wave x; b_t_merger := b_t_merger x; b_amp_merger := b_amp_merger x;
       b_extrema_kwargs := b_extrema_kwargs x; b_fits_kwargs := b_fits_kwargs x; b_config := scalar_as b (b_config x);
       b_degrees := b_degrees x; b_residual := b_residual x; b_refine := b_refine x |}.
  Definition object_as (b : bool) (o : object) : object :=
    {| o_method := o_method o; o_base := base_as b (o_base o); o_data := o_data o; o_fits := o_fits o |}.
  Definition two_bases (x y : base) : Prop := length (requested (b_config x)) = 1 /\ x = base_as true x /\ y = base_as false x.
  Definition two_objects (x y : object) : Prop :=
    length (requested (b_config (o_base x))) = 1 /\ x = object_as true x /\ y = object_as false x.
  Lemma number_ref a : number a -> exists rf, length (ref_list rf) = 1 /\ reference_of (a_tref a) (a_fref a) = Ok (rf, true) /\
    reference_of (a_tref (arrayed a)) (a_fref (arrayed a)) = Ok (rf, false).
  Proof. intros [(x & H1 & H2)|(x & H1 & H2)]; unfold arrayed; cbn; rewrite H1, H2; cbn; eexists; split; [|split; reflexivity| |split; reflexivity]; reflexivity. Qed.
  Lemma init_rel a p w : number a -> relw two_bases (init L a p) (init L (arrayed a) p) w.
  Proof.
    intros H. apply number_ref in H. destruct H as (rf & L1 & H1 & H2). unfold init.
    change (a_frame (arrayed a)) with (a_frame a). change (a_precessing (arrayed a)) with (a_precessing a).
    change (a_level (arrayed a)) with (a_level a). change (a_num (arrayed a)) with (a_num a).
    apply relw_bind with (P := fun x y => x = (rf, true) /\ y = (rf, false)).
    { unfold relw, wlift, lift. cbn [fst snd]. rewrite H1, H2. auto. }
    intros x y w' [-> ->]. cbn [fst snd].
    do 13 (apply relw_same; [reflexivity|]; intros ? ?).
    unfold relw, wret. cbn. do 2 (split; [reflexivity|]). unfold two_bases. cbn. split; [|split; reflexivity].
    unfold requested. cbn. destruct rf; exact L1.
  Qed.
  Lemma build_rel m a p w : number a -> relw two_objects (build L m a p) (build L m (arrayed a) p) w.
  Proof.
    intros H. unfold build. apply relw_bind with (P := two_bases); [now apply init_rel|].
    intros x y w' (H1 & H2 & ->). cbv zeta. rewrite H2. set (z := base_as true x) in *. 
    assert (K : forall data fk (v : world), relw two_objects (wret {| o_method := m; o_base := z; o_data := data; o_fits := fk |})
      (wret {| o_method := m; o_base := base_as false z; o_data := data; o_fits := fk |}) v).
    { intros. unfold relw, wret. cbn. do 2 (split; [reflexivity|]). unfold two_objects. cbn. split; [exact H1|]. split; reflexivity. }
    change (base_as false x) with (base_as false z).
    repeat match goal with |- relw _ (if ?b then _ else _) _ _ => destruct b end;
      try (apply relw_same; [reflexivity|]; intros ? ?); try (apply relw_same; [reflexivity|]; intros ? ?); apply K.
  Qed.
  (** the entries of the two returned dictionaries *)
  Lemma measure_scalar m a p w : number a -> relw paired (measure_eccentricity L m a p) (measure_eccentricity L m (arrayed a) p) w.
  Proof.
    intros H. unfold measure_eccentricity. destruct (existsb _ _); [|unfold relw; cbn; auto].
    apply relw_bind with (P := two_objects); [now apply build_rel|]. intros o o' w' (H1 & H2 & ->). cbv zeta.
    change (a_level (arrayed a)) with (a_level a).
    assert (K : forall x y, x = measure_object L (a_level a) (object_as true o) -> y = measure_object L (a_level a) (object_as false o) ->
      fst x = fst y /\ fst (snd x) = fst (snd y) /\
      match snd (snd x), snd (snd y) with Ok r, Ok r2 => same_result r r2 | Err e, Err e2 => e = e2 | _, _ => False end).
    { intros x y -> ->.
      exact (measure_rel (lib_ecc L) (lib_zero L) (lib_negative L) (find_extrema L o) (lib_spline L) (lib_pchip L) (lib_rational L)
        (lib_slope L) (a_level a) (b_config (o_base o)) (fresh (b_degrees (o_base o))) H1). }
    rewrite <- H2 in K. specialize (K _ _ eq_refl eq_refl).
    destruct K as (K1 & K2 & K3). unfold relw, wbind, wlog, wret, lret. cbv zeta. cbn [fst snd].
    destruct (measure_object L (a_level a) o) as [l1 [s1 r1]], (measure_object L (a_level a) (object_as false o)) as [l2 [s2 r2]].
    cbn [fst snd] in *. subst l2 s2. destruct r1 as [r1|], r2 as [r2|]; cbn in K3; try contradiction; [|subst; cbn; auto].
    cbn [fst snd]. do 2 (split; [reflexivity|]). destruct r1 as [e1 m1 t1 f1], r2 as [e2 m2 t2 f2]. unfold same_result, same_opt, same_out in K3. cbn in K3.
    destruct K3 as ((e & -> & ->) & (x & -> & ->) & K4 & K5). unfold paired, return_dict. cbn.
    split; [eauto|]. split; [eauto|]. intros k [<-|[<-|[]]].
    - destruct t1 as [t1|], t2 as [t2|]; try (elim K4; fail); destruct f1 as [f1|], f2 as [f2|]; try (elim K5; fail); cbn;
        try (destruct K4 as (y & -> & ->)); eauto.
    - destruct t1 as [t1|], t2 as [t2|]; try (elim K4; fail); destruct f1 as [f1|], f2 as [f2|]; try (elim K5; fail); cbn;
        try (destruct K5 as (y & -> & ->)); eauto.
  Qed.
End W.
