(** Proofs that methods without residuals do not look at zeroecc data (C61). *)
From Verif Require Import Base BaseLemmas UtilsModel UtilsSpec UtilsLemmas ExtremaModel RationalModel MeasureModel MeasureSpec LevelLemmas
  SegmentModel SegmentSpec SegmentLemmas DataModel DataSpec DataLemmas DataLemmas2 InitModel InitSpec InitLemmas InitOptions InitSame InitZero OptionSpec OptionLemmas.
Open Scope string_scope.
Open Scope nat_scope.

(** ** dictionaries without the zeroecc entries *)
Definition forget {V} (d : sdict V) : sdict V := filter (fun kv => negb (zeroecc_key (fst kv))) d.
Lemma slookup_forget {V} (d : sdict V) k : slookup (forget d) k = if zeroecc_key k then None else slookup d k.
Proof.
  unfold slookup, forget. induction d as [|[x v] d IH]; [now destruct (zeroecc_key k)|]. cbn [filter fst dlookup].
  destruct (String.eqb_spec k x) as [->|N].
  - destruct (zeroecc_key x) eqn:E; cbn [negb]; [exact IH|]. cbn [dlookup]. now rewrite String.eqb_refl.
  - destruct (zeroecc_key x); cbn [negb]; [exact IH|]. cbn [dlookup]. destruct (String.eqb_spec k x) as [|_]; [contradiction|]. exact IH.
Qed.
Lemma smem_forget {V} (d : sdict V) k : smem (forget d) k = if zeroecc_key k then false else smem d k.
Proof. unfold smem, dmem. fold (slookup (forget d) k) (slookup d k). rewrite slookup_forget. now destruct (zeroecc_key k). Qed.
Lemma sget_forget {V} (d : sdict V) k : zeroecc_key k = false -> sget (forget d) k = sget d k.
Proof. intros H. unfold sget, dget. fold (slookup (forget d) k) (slookup d k). rewrite slookup_forget. now rewrite H. Qed.
Lemma forget_sset {V} (d : sdict V) k v : forget (sset d k v) = if zeroecc_key k then forget d else sset (forget d) k v.
Proof.
  unfold forget, sset. induction d as [|[x u] d IH]; cbn [dset filter fst]; [now destruct (zeroecc_key k)|].
  destruct (String.eqb_spec k x) as [->|N].
  - cbn [filter fst]. destruct (zeroecc_key x) eqn:E; cbn [negb]; [reflexivity|]. cbn [dset]. now rewrite String.eqb_refl.
  - cbn [filter fst]. rewrite IH. destruct (zeroecc_key x), (zeroecc_key k); cbn [negb]; try reflexivity.
    cbn [dset]. destruct (String.eqb_spec k x) as [|_]; [contradiction|reflexivity].
Qed.
Lemma forget_spop {V} (d : sdict V) k : forget (spop d k) = if zeroecc_key k then forget d else spop (forget d) k.
Proof.
  unfold forget, spop. induction d as [|[x u] d IH]; cbn [dpop filter fst]; [now destruct (zeroecc_key k)|].
  destruct (String.eqb_spec k x) as [->|N].
  - destruct (zeroecc_key x) eqn:E; cbn [negb]; [reflexivity|]. cbn [dpop]. now rewrite String.eqb_refl.
  - cbn [filter fst]. rewrite IH. destruct (zeroecc_key x), (zeroecc_key k); cbn [negb]; try reflexivity.
    cbn [dpop]. destruct (String.eqb_spec k x) as [|_]; [contradiction|reflexivity].
Qed.
Lemma forget_app {V} (a b : sdict V) : forget (a ++ b)%list = (forget a ++ forget b)%list.
Proof. apply filter_app. Qed.
Lemma forget_keys {V} (d : sdict V) k : In k (dkeys (forget d)) -> In k (dkeys d).
Proof.
  unfold dkeys, forget. intros H. apply in_map_iff in H. destruct H as ([x v] & <- & H). apply filter_In in H. destruct H as [H _].
  apply in_map_iff. exists (x, v). auto.
Qed.

Section D.
  Variable C : Type.
  Variable cabs cphase : C -> list Q.
  Variable cpolar : list Q -> list Q -> res C.
  Variable rotate : list Q -> list C -> res (list C).
  Variable qsqrt : Q -> Q.
  Notation heap := (heap C). Notation dval := (dval C).
  Notation trans := (transform_inertial_to_coprecessing C cabs cphase cpolar rotate).
  Notation readw := (read_waveform C cabs cphase cpolar rotate qsqrt).

  Lemma forget_deepcopy h (d : sdict dval) : forget (deepcopy C h d) = deepcopy C h (forget d).
  Proof.
    unfold forget, deepcopy. induction d as [|[k v] d IH]; [reflexivity|]. cbn [map filter fst]. rewrite IH. now destruct (zeroecc_key k).
  Qed.
  Lemma private_deepcopy h d : all_private C d -> deepcopy C h d = d.
  Proof.
    unfold all_private, deepcopy. induction 1 as [|[k v] d H _ IH]; [reflexivity|]. cbn [map fst snd]. f_equal; [|exact IH].
    f_equal. destruct v; try reflexivity. elim H.
  Qed.

  (** ** the caller's objects, with the zeroecc entries of the dictionary at p removed *)
  Variable p : nat.
  Definition ok (h : heap) : Prop := exists d, nth_error h p = Some (OTop C d).
  Definition strip (h : heap) : heap := match nth_error h p with Some (OTop _ d) => set_nth h p (OTop C (forget d)) | _ => h end.
  Lemma strip_at h q : nth_error (strip h) q = if Nat.eqb q p then match nth_error h p with Some (OTop _ d) => Some (OTop C (forget d)) | x => x end
                                               else nth_error h q.
  Proof.
    unfold strip. destruct (nth_error h p) as [[]|] eqn:E; try (destruct (Nat.eqb_spec q p); subst; now rewrite ?E).
    rewrite nth_set. destruct (Nat.eqb_spec q p) as [->|N].
    - rewrite Nat.eqb_refl. assert (p < length h) by (apply nth_error_Some; congruence). destruct (Nat.ltb_spec p (length h)); [reflexivity|lia].
    - destruct (Nat.eqb_spec p q); [congruence|]. reflexivity.
  Qed.
  Lemma real_strip h v : ok h -> real_of C (strip h) v = real_of C h v.
  Proof. intros [d Hd]. destruct v; try reflexivity. cbn [real_of]. rewrite strip_at. destruct (Nat.eqb_spec p0 p) as [->|N]; [now rewrite Hd|reflexivity]. Qed.
  Lemma cplx_strip h v : ok h -> cplx_of C (strip h) v = cplx_of C h v.
  Proof. intros [d Hd]. destruct v; try reflexivity. cbn [cplx_of]. rewrite strip_at. destruct (Nat.eqb_spec p0 p) as [->|N]; [now rewrite Hd|reflexivity]. Qed.
  Lemma deep_strip h v : ok h -> deep_val C (strip h) v = deep_val C h v.
  Proof. intros [d Hd]. destruct v; try reflexivity. cbn [deep_val]. rewrite strip_at. destruct (Nat.eqb_spec p0 p) as [->|N]; [now rewrite Hd|reflexivity]. Qed.
  Lemma copy_strip h d : ok h -> deepcopy C (strip h) d = deepcopy C h d.
  Proof. intros H. unfold deepcopy. apply map_ext. intros [k v]. cbn [fst snd]. now rewrite deep_strip. Qed.
  Lemma modes_strip h d k : ok h -> zeroecc_key k = false -> modes_at C (strip h) (forget d) k = modes_at C h d k.
  Proof. intros H Hk. unfold modes_at. rewrite sget_forget by exact Hk. destruct (sget d k); cbn; [now apply real_strip|reflexivity]. Qed.
  Lemma gw_strip h precessing d : ok h -> get_amp_phase_omega_gw C (strip h) precessing (forget d) "" = get_amp_phase_omega_gw C h precessing d "".
  Proof. intros H. unfold get_amp_phase_omega_gw. cbn [append]. rewrite !modes_strip by (auto; reflexivity). reflexivity. Qed.
  Lemma ok_set h q x : nth_error h q = Some x -> ok h -> (forall d, x <> OTop C d) -> forall m, ok (set_nth h q (OReal C m)) /\
    strip (set_nth h q (OReal C m)) = set_nth (strip h) q (OReal C m).
  Proof.
    intros Hq [d Hd] N m. assert (Hqp : q <> p). { intros ->. rewrite Hd in Hq. apply Some_inj in Hq. now elim (N d). }
    assert (O : nth_error (set_nth h q (OReal C m)) p = Some (OTop C d)).
    { rewrite nth_set. destruct (Nat.eqb_spec q p); [contradiction|exact Hd]. }
    split; [eexists; exact O|]. unfold strip. rewrite O, Hd. clear -Hqp. revert q p Hqp. induction h as [|y h IH]; intros [|q] [|r] H; cbn; try reflexivity; try congruence.
    f_equal. apply IH. congruence.
  Qed.

  (** ** two runs side by side *)
  Definition sim {A B} (f : A -> B) (m1 : M C A) (m2 : M C B) : Prop :=
    forall h h' l a, ok h -> m1 h = (h', (l, Ok a)) -> ok h' /\ exists l2, m2 (strip h) = (strip h', (l2, Ok (f a))).
  Lemma sim_bind {A B A2 B2} (f : A -> A2) (g : B -> B2) m1 m2 k1 k2 : sim f m1 m2 -> (forall a, sim g (k1 a) (k2 (f a))) ->
    sim g (mbind C m1 k1) (mbind C m2 k2).
  Proof.
    intros Hm Hk h h' l b O H. apply mbind_ok in H. destruct H as (h1 & w1 & w2 & a & E & H & _).
    destruct (Hm _ _ _ _ O E) as (O1 & l1 & E1). destruct (Hk a _ _ _ _ O1 H) as (O2 & l2 & E2).
    split; [exact O2|]. exists (l1 ++ l2)%list. unfold mbind. rewrite E1. cbn [fst snd]. rewrite E2. reflexivity.
  Qed.
  Lemma sim_ret {A B} (f : A -> B) a b : b = f a -> sim f (mret C a) (mret C b).
  Proof. intros -> h h' l x O H. apply ret_ok in H. destruct H as (-> & _ & ->). split; [exact O|]. eexists. reflexivity. Qed.
  Lemma sim_lift {A B} (f : A -> B) r r2 : (forall a, r = Ok a -> r2 = Ok (f a)) -> sim f (mlift C r) (mlift C r2).
  Proof. intros X h h' l a O H. apply lift_ok in H. destruct H as (-> & _ & H). split; [exact O|]. exists []. unfold mlift, lift. now rewrite (X a H). Qed.
  Lemma sim_log {A} (r : lg A) : sim (fun a => a) (mlog C r) (mlog C r).
  Proof. intros h h' l a O H. apply log_ok in H. destruct H as (-> & _ & H). split; [exact O|]. exists (fst r). unfold mlog. destruct r. cbn in *. now subst. Qed.
  Lemma sim_read {A B} (f : A -> B) r r2 : (forall h a, ok h -> r h = Ok a -> r2 (strip h) = Ok (f a)) -> sim f (mread C r) (mread C r2).
  Proof. intros X h h' l a O H. apply read_ok in H. destruct H as (-> & _ & H). split; [exact O|]. exists []. unfold mread, lift. now rewrite (X h a O H). Qed.

  Definition fplace (pl : place C) : place C := match pl with Own _ d => Own C (forget d) | Caller _ q => Caller C q end.
  Definition at_p (pl : place C) : Prop := match pl with Own _ _ => True | Caller _ q => q = p end.
  Lemma top_strip h pl d : at_p pl -> ok h -> top_of C h pl = Ok d -> top_of C (strip h) (fplace pl) = Ok (forget d).
  Proof.
    intros Hp [d0 Hd] H. destruct pl; cbn [fplace top_of at_p] in *; [|apply Ok_inj in H; now subst]. subst.
    rewrite strip_at, Nat.eqb_refl. rewrite Hd in *. apply Ok_inj in H. now subst.
  Qed.
  Lemma copre_strip h d r : ok h -> get_coprecessing_data_dict C rotate h d "" = Ok r ->
    get_coprecessing_data_dict C rotate (strip h) (forget d) "" = Ok (forget r).
  Proof.
    intros O H. unfold get_coprecessing_data_dict in *. cbn [append] in *. rewrite !sget_forget by reflexivity.
    apply bind_ok in H. destruct H as (m & Em & H). apply bind_ok in H. destruct H as (cols & Ec & H).
    apply bind_ok in H. destruct H as (t & Et & H). apply bind_ok in H. destruct H as (rot & Er & H). apply Ok_inj in H. subst r.
    replace (do v <- sget d "hlm"; cplx_of C (strip h) v) with (Ok m).
    2:{ destruct (sget d "hlm"); cbn in *; [|discriminate]. now rewrite cplx_strip. }
    cbn [bind]. rewrite Ec. cbn [bind]. rewrite Et. cbn [bind]. rewrite Er. cbn [bind]. rewrite forget_sset. cbn -[forget]. f_equal. f_equal.
    rewrite copy_strip by exact O. symmetry. apply forget_deepcopy.
  Qed.
  Lemma amplm_strip h d : ok h -> amplm_for C cabs (strip h) (forget d) "" = amplm_for C cabs h d "".
  Proof.
    intros O. unfold amplm_for. cbn [append]. rewrite !slookup_forget. cbn [zeroecc_key existsb String.eqb Ascii.eqb Bool.eqb orb].
    destruct (slookup d "amplm"); [now apply real_strip|]. destruct (slookup d "hlm"); [now rewrite cplx_strip|reflexivity].
  Qed.
  Lemma phaselm_strip h d : ok h -> phaselm_for C cphase (strip h) (forget d) "" = phaselm_for C cphase h d "".
  Proof.
    intros O. unfold phaselm_for. cbn [append]. rewrite !slookup_forget. cbn [zeroecc_key existsb String.eqb Ascii.eqb Bool.eqb orb].
    destruct (slookup d "phaselm"); [now apply real_strip|]. destruct (slookup d "hlm"); [now rewrite cplx_strip|reflexivity].
  Qed.
  Lemma amplm_zero h d : amplm_for C cabs h (forget d) "_zeroecc" = Ok [].
  Proof. unfold amplm_for. cbn [append]. rewrite !slookup_forget. reflexivity. Qed.
  Lemma phaselm_zero h d : phaselm_for C cphase h (forget d) "_zeroecc" = Ok [].
  Proof. unfold phaselm_for. cbn [append]. rewrite !slookup_forget. reflexivity. Qed.
  Lemma hlm_strip h d a ph e : ok h -> get_amplm_from_dataDict C cabs h d = Ok a -> get_phaselm_from_dataDict C cphase h d = Ok ph ->
    get_hlm_from_amplm_phaselm C cpolar h a ph = Ok e ->
    (do a <- get_amplm_from_dataDict C cabs (strip h) (forget d); do p <- get_phaselm_from_dataDict C cphase (strip h) (forget d);
     get_hlm_from_amplm_phaselm C cpolar (strip h) a p) = Ok (forget e).
  Proof.
    intros O Ha Hp He. apply amplm_shape in Ha. destruct Ha as (am & az & A1 & _ & ->).
    apply phaselm_shape in Hp. destruct Hp as (pm & pz & P1 & _ & ->).
    unfold get_amplm_from_dataDict, get_phaselm_from_dataDict. rewrite amplm_strip, A1, amplm_zero, phaselm_strip, P1, phaselm_zero by exact O.
    cbn [bind]. unfold get_hlm_from_amplm_phaselm in *. cbn [append] in *.
    change (sget (("amplm", VReal C am) :: opt_entry C "amplm_zeroecc" az) "amplm") with (Ok (VReal C am)) in He.
    change (sget (("phaselm", VReal C pm) :: opt_entry C "phaselm_zeroecc" pz) "phaselm") with (Ok (VReal C pm)) in He.
    change (sget [("amplm", VReal C am)] "amplm") with (Ok (VReal C am)). change (sget [("phaselm", VReal C pm)] "phaselm") with (Ok (VReal C pm)).
    change (smem [("amplm", VReal C am)] "amplm_zeroecc") with false.
    cbn [bind real_of] in *.
    apply bind_ok in He. destruct He as (x & Ex & He). rewrite Ex. cbn [bind].
    assert (K : fst x = "hlm"). { destruct am; [apply Ok_inj in Ex; now subst|]. apply bind_ok in Ex. destruct Ex as (? & _ & Ex). apply Ok_inj in Ex. now subst. }
    destruct (smem _ "amplm_zeroecc").
    - apply bind_ok in He. destruct He as (z & Ez & He). apply Ok_inj in He. subst e.
      assert (Kz : fst z = "hlm_zeroecc").
      { apply bind_ok in Ez. destruct Ez as (? & _ & Ez). apply bind_ok in Ez. destruct Ez as (u & _ & Ez). destruct u; [apply Ok_inj in Ez; now subst|].
        apply bind_ok in Ez. destruct Ez as (? & _ & Ez). apply bind_ok in Ez. destruct Ez as (? & _ & Ez). apply bind_ok in Ez. destruct Ez as (? & _ & Ez). apply Ok_inj in Ez. now subst. }
      unfold forget. cbn [filter]. rewrite K, Kz. reflexivity.
    - apply Ok_inj in He. subst e. unfold forget. cbn [filter]. rewrite K. reflexivity.
  Qed.
  Lemma forget_update {V} (e : sdict V) : forall d, forget (dupdate String.eqb d e) = dupdate String.eqb (forget d) (forget e).
  Proof.
    induction e as [|[k v] e IH]; intros d; [reflexivity|]. cbn [dupdate]. rewrite IH. fold (sset d k v). rewrite forget_sset.
    change (forget ((k, v) :: e)) with (if negb (zeroecc_key k) then (k, v) :: forget e else forget e). destruct (zeroecc_key k); reflexivity.
  Qed.
  Lemma update_strip e : sim fplace (update_place C (Caller C p) e) (update_place C (Caller C p) (forget e)).
  Proof.
    intros h h' l a [d Hd] H. unfold update_place in *. rewrite Hd in H. injection H as <- <- <-.
    assert (O : nth_error (set_nth h p (OTop C (dupdate String.eqb d e))) p = Some (OTop C (dupdate String.eqb d e))).
    { rewrite nth_set, Nat.eqb_refl. assert (p < length h) by (apply nth_error_Some; congruence). destruct (Nat.ltb_spec p (length h)); [reflexivity|lia]. }
    split; [eexists; exact O|]. exists []. rewrite strip_at, Nat.eqb_refl, Hd. unfold lret, lift. f_equal.
    unfold strip. rewrite O, Hd. rewrite forget_update. clear. revert h. induction p as [|n IH]; intros [|x h]; cbn; try reflexivity. f_equal. apply IH.
  Qed.
  Lemma trans_strip level : sim forget (trans level (Caller C p) "") (trans level (Caller C p) "").
  Proof.
    unfold transform_inertial_to_coprecessing. cbn [append].
    apply (sim_bind forget); [apply sim_read; intros h d O H; exact (top_strip h (Caller C p) d eq_refl O H)|]. intros d.
    apply (sim_bind forget).
    - rewrite smem_forget. cbn [zeroecc_key existsb String.eqb Ascii.eqb Bool.eqb orb]. destruct (smem d "hlm").
      + apply sim_read. intros h r O H. now apply copre_strip.
      + apply (sim_bind forget).
        * apply sim_read. intros h e O H. apply bind_ok in H. destruct H as (a & Ea & H). apply bind_ok in H. destruct H as (ph & Ep & H).
          now apply (hlm_strip h d a ph e).
        * intros e. intros h h' l x O H.
          apply mbind_ok in H. destruct H as (h1 & w1 & w2 & pl2 & E & H & _).
          destruct (update_strip e _ _ _ _ O E) as (O1 & l1 & E1).
          assert (Hpl : at_p pl2 /\ fplace pl2 = pl2).
          { destruct O as [d0 Hd0]. unfold update_place in E. rewrite Hd0 in E. injection E as _ _ <-. split; reflexivity. }
          destruct Hpl as [Hpl Hpl2].
          assert (S : sim forget
            (mbind C (mread C (fun h => top_of C h pl2)) (fun d2 => mbind C (mread C (fun h => get_coprecessing_data_dict C rotate h d2 "")) (fun d3 =>
               mbind C (mlog C (dbg "removing inertial frame amplm and phaselm" level false)) (fun _ => mret C (spop (spop d3 "amplm") "phaselm")))))
            (mbind C (mread C (fun h => top_of C h (fplace pl2))) (fun d2 => mbind C (mread C (fun h => get_coprecessing_data_dict C rotate h d2 "")) (fun d3 =>
               mbind C (mlog C (dbg "removing inertial frame amplm and phaselm" level false)) (fun _ => mret C (spop (spop d3 "amplm") "phaselm")))))).
          { apply (sim_bind forget); [apply sim_read; intros; now apply top_strip|]. intros d2.
            apply (sim_bind forget); [apply sim_read; intros; now apply copre_strip|]. intros d3.
            apply (sim_bind (fun a => a)); [apply sim_log|]. intros _. apply sim_ret. rewrite !forget_spop. reflexivity. }
          destruct (S _ _ _ _ O1 H) as (O2 & l2 & E2). split; [exact O2|]. exists (l1 ++ l2)%list.
          unfold mbind at 1. rewrite E1. cbn [fst snd]. rewrite E2. reflexivity.
    - intros d1. rewrite smem_forget. cbn [zeroecc_key existsb String.eqb Ascii.eqb Bool.eqb orb]. destruct (smem d1 "omegalm").
      + apply (sim_bind (fun a => a)); [apply sim_log|]. intros _. apply sim_ret. rewrite forget_spop. reflexivity.
      + apply sim_ret. reflexivity.
  Qed.
  (** the second transformation only concerns the zeroecc entries *)
  Lemma sset_same {V} (d : sdict V) k v : slookup d k = Some v -> sset d k v = d.
  Proof.
    unfold slookup, sset. induction d as [|[x u] d IH]; cbn [dlookup dset]; [discriminate|]. destruct (String.eqb k x).
    - intros H. apply Some_inj in H. now subst.
    - intros H. now rewrite IH.
  Qed.
  Definition polar_form : Prop := forall c, cpolar (cabs c) (cphase c) = Ok c.
  Lemma polar_again rot m : polar_form ->
    polar_modes C cpolar (map (fun kc => (fst kc, cabs (snd kc))) (combine ell2 rot)) (map (fun kc => (fst kc, cphase (snd kc))) (combine ell2 rot)) = Ok m ->
    m = combine ell2 rot.
  Proof.
    intros P H. unfold ell2 in *.
    destruct rot as [|c1 [|c2 [|c3 [|c4 [|c5 rot]]]]]; cbn [combine map fst snd polar_modes] in *; repeat (change (mget _ _) with (Ok (cphase c1)) in H at 1);
      unfold mget, dget in H; cbn [dlookup mode_eqb fst snd Z.eqb Pos.eqb andb bind] in H; rewrite ?P in H; cbn [bind] in H; now apply Ok_inj in H.
  Qed.
  Lemma trans_zero level d h h' l r rot : all_private C d -> slookup d "hlm" = Some (VCplx C (combine ell2 rot)) ->
    (smem d "hlm_zeroecc" = true \/ polar_form) -> ~ has d "amplm" -> ~ has d "phaselm" ->
    trans level (Own C d) "_zeroecc" h = (h', (l, Ok r)) -> h' = h /\ forget r = forget d.
  Proof.
    intros Hd Hr Hp Na Np H. unfold transform_inertial_to_coprecessing in H. rewrite (step_read _ _ _ _ d) in H by reflexivity. cbn [append] in H.
    apply mbind_ok in H. destruct H as (h1 & w1 & w2 & d1 & E & H & _).
    assert (R : h' = h1 /\ forget r = forget d1).
    { destruct (smem d1 _).
      - apply mbind_ok in H. destruct H as (h2 & w3 & w4 & u & X & H & _). apply log_ok in X. destruct X as [-> _].
        apply ret_ok in H. destruct H as (-> & _ & ->). split; [reflexivity|]. now rewrite forget_spop.
      - apply ret_ok in H. destruct H as (-> & _ & ->). auto. }
    destruct R as [-> ->]. clear H.
    assert (K : forall h0 d2 r0, get_coprecessing_data_dict C rotate h0 d2 "_zeroecc" = Ok r0 -> all_private C d2 -> forget r0 = forget d2).
    { intros h0 d2 r0 X Pd. unfold get_coprecessing_data_dict in X. do 4 (apply bind_ok in X; destruct X as (? & _ & X)). apply Ok_inj in X. subst r0.
      cbn [append]. rewrite forget_sset. cbn [zeroecc_key existsb String.eqb Ascii.eqb Bool.eqb orb]. now rewrite private_deepcopy. }
    destruct (smem d "hlm_zeroecc") eqn:Em.
    - apply read_ok in E. destruct E as (-> & _ & E). split; [reflexivity|]. now apply (K h).
    - destruct Hp as [|Hp]; [discriminate|].
      apply mbind_ok in E. destruct E as (h2 & w3 & w4 & e & E & H & _). apply read_ok in E. destruct E as (-> & _ & E).
      rewrite (step_ok _ _ _ _ _ _ (update_own C d e h)) in H. rewrite (step_read _ _ _ _ (dupdate String.eqb d e)) in H by reflexivity.
      apply mbind_ok in H. destruct H as (h5 & w9 & w10 & d3 & E4 & H & _). apply read_ok in E4. destruct E4 as (-> & -> & E4).
      apply mbind_ok in H. destruct H as (h6 & w11 & w12 & u & X & H & _). apply log_ok in X. destruct X as [-> _].
      apply ret_ok in H. destruct H as (-> & _ & ->). split; [reflexivity|]. rewrite !forget_spop. cbn [zeroecc_key existsb String.eqb Ascii.eqb Bool.eqb orb].
      assert (He : forget e = [("hlm", VCplx C (combine ell2 rot))] /\ all_private C e).
      { apply bind_ok in E. destruct E as (a & Ea & E). apply bind_ok in E. destruct E as (ph & Ep & E).
        apply amplm_shape in Ea. destruct Ea as (am & az & A1 & _ & ->). apply phaselm_shape in Ep. destruct Ep as (pm & pz & P1 & _ & ->).
        assert (L1 : slookup d "amplm" = None). { destruct (slookup d "amplm") eqn:Q; [|reflexivity]. elim Na. eapply has_lookup; eauto. }
        assert (L2 : slookup d "phaselm" = None). { destruct (slookup d "phaselm") eqn:Q; [|reflexivity]. elim Np. eapply has_lookup; eauto. }
        unfold amplm_for in A1. unfold phaselm_for in P1. cbn [append] in A1, P1. rewrite L1, Hr in A1. rewrite L2, Hr in P1. cbn [cplx_of bind] in A1, P1.
        apply Ok_inj in A1. apply Ok_inj in P1.
        unfold get_hlm_from_amplm_phaselm in E. cbn [append] in E.
        change (sget (("amplm", VReal C am) :: opt_entry C "amplm_zeroecc" az) "amplm") with (Ok (VReal C am)) in E.
        change (sget (("phaselm", VReal C pm) :: opt_entry C "phaselm_zeroecc" pz) "phaselm") with (Ok (VReal C pm)) in E.
        cbn [bind real_of] in E.
        apply bind_ok in E. destruct E as (x & Ex & E).
        assert (Kx : x = ("hlm", VCplx C (combine ell2 rot))).
        { destruct am as [|a0 am'] eqn:Eam; [apply Ok_inj in Ex; subst x; destruct (combine ell2 rot); [reflexivity|discriminate]|].
          rewrite <- Eam in *. apply bind_ok in Ex. destruct Ex as (m & Em2 & Ex). apply Ok_inj in Ex. subst x. do 2 f_equal.
          subst am pm. rewrite <- A1 in Em2. now apply polar_again. }
        subst x. destruct (smem _ "amplm_zeroecc").
        - apply bind_ok in E. destruct E as (z & Ez & E). apply Ok_inj in E. subst e.
          assert (Kz : fst z = "hlm_zeroecc" /\ private C (snd z)).
          { apply bind_ok in Ez. destruct Ez as (? & _ & Ez). apply bind_ok in Ez. destruct Ez as (u0 & _ & Ez). destruct u0; [apply Ok_inj in Ez; subst z; split; [reflexivity|exact I]|].
            apply bind_ok in Ez. destruct Ez as (? & _ & Ez). apply bind_ok in Ez. destruct Ez as (? & _ & Ez). apply bind_ok in Ez. destruct Ez as (? & _ & Ez). apply Ok_inj in Ez. subst z; split; [reflexivity|exact I]. }
          destruct Kz as [K1 K2]. split; [unfold forget; cbn [filter fst]; rewrite K1; reflexivity|]. repeat constructor. exact K2.
        - apply Ok_inj in E. subst e. split; [reflexivity|]. repeat constructor. }
      destruct He as [He Pe].
      assert (PU : forall (e0 d0 : sdict dval), all_private C e0 -> all_private C d0 -> all_private C (dupdate String.eqb d0 e0)).
      { intros e0. induction e0 as [|[k v] e0 IH]; intros d0 P1 P2; [exact P2|]. cbn [dupdate]. apply IH; [now inversion P1|]. apply private_set; [now inversion P1|exact P2]. }
      rewrite (K _ _ _ E4) by (apply PU; assumption). rewrite forget_update, He. cbn [dupdate].
      apply (sset_same (forget d) "hlm"). rewrite slookup_forget. exact Hr.
  Qed.
  (** ** reading and truncating *)
  Lemma keys_sset {V} (d : sdict V) k v : NoDup (dkeys d) -> NoDup (dkeys (sset d k v)).
  Proof.
    unfold sset, dkeys. induction d as [|[x u] d IH]; cbn [dset map fst]; intros H; [repeat constructor; auto|].
    inversion_clear H. destruct (String.eqb_spec k x) as [->|N]; cbn [map fst]; [constructor; auto|]. constructor; [|auto].
    intros HI. apply H0. change (has (sset d k v) x) in HI. apply has_sset in HI. destruct HI as [HI|HI]; [congruence|exact HI].
  Qed.
  Lemma keys_update {V} (e : sdict V) : forall d, NoDup (dkeys d) -> NoDup (dkeys (dupdate String.eqb d e)).
  Proof. induction e as [|[k v] e IH]; intros d H; [exact H|]. cbn [dupdate]. apply IH. now apply keys_sset. Qed.
  Lemma keys_copy h (d : sdict dval) : dkeys (deepcopy C h d) = dkeys d.
  Proof. apply deepcopy_keys. Qed.
  Lemma keys_spop {V} (d : sdict V) k : NoDup (dkeys d) -> NoDup (dkeys (spop d k)) /\ ~ has (spop d k) k /\ (forall x, has (spop d k) x -> has d x).
  Proof.
    unfold has, spop, dkeys. induction d as [|[x u] d IH]; cbn [dpop map fst]; intros H; [repeat split; auto|].
    inversion_clear H. destruct (String.eqb_spec k x) as [->|N]; [repeat split; auto; intros; now right|].
    destruct (IH H1) as (A & B & D). cbn [map fst]. repeat split.
    - constructor; [|exact A]. intros HI. apply H0. now apply D.
    - intros [->|X]; [congruence|contradiction].
    - intros y [->|X]; [now left|right; auto].
  Qed.
  Lemma copre_shape h d tag r : get_coprecessing_data_dict C rotate h d tag = Ok r ->
    exists rot, r = sset (deepcopy C h d) ("hlm" ++ tag) (VCplx C (combine ell2 rot)).
  Proof.
    unfold get_coprecessing_data_dict. intros H. do 4 (apply bind_ok in H; destruct H as (? & _ & H)). apply Ok_inj in H. eauto.
  Qed.
  Lemma first_trans level h h1 w d0 d1 : is_dict h p d0 -> NoDup (dkeys d0) -> one_representation d0 ->
    trans level (Caller C p) "" h = (h1, (w, Ok d1)) ->
    exists rot, slookup d1 "hlm" = Some (VCplx C (combine ell2 rot)) /\ ~ has d1 "amplm" /\ ~ has d1 "phaselm".
  Proof.
    intros Hd HN HR H. assert (T : top_of C h (Caller C p) = Ok d0) by (cbn [top_of]; now rewrite Hd).
    unfold transform_inertial_to_coprecessing in H. rewrite (step_read _ _ _ _ d0) in H by exact T. cbn [append] in H.
    apply mbind_ok in H. destruct H as (h2 & w1 & w2 & d2 & E & H & _).
    enough (X : NoDup (dkeys d2) /\ exists rot, slookup d2 "hlm" = Some (VCplx C (combine ell2 rot)) /\ ~ has d2 "amplm" /\ ~ has d2 "phaselm").
    { destruct X as (N2 & rot & X1 & X2 & X3). exists rot. destruct (smem d2 "omegalm").
      - apply mbind_ok in H. destruct H as (h3 & w3 & w4 & u & X & H & _). apply ret_ok in H. destruct H as (_ & _ & ->).
        destruct (keys_spop d2 "omegalm" N2) as (_ & _ & K). rewrite slookup_spop by discriminate. split; [exact X1|]. split; intros Q; apply K in Q; auto.
      - apply ret_ok in H. destruct H as (_ & _ & ->). auto. }
    clear H. destruct (smem d0 "hlm") eqn:Em.
    - apply read_ok in E. destruct E as (_ & _ & E). apply copre_shape in E. destruct E as (rot & ->). cbn [append].
      split; [apply keys_sset; now rewrite keys_copy|]. exists rot. split; [now rewrite slookup_sset, String.eqb_refl|].
      apply has_mem in Em.
      assert (NA : ~ has d0 "amplm" /\ ~ has d0 "phaselm"). { unfold one_representation in HR. tauto. }
      destruct NA as [NA NP]. split; intros Q; apply has_sset in Q; destruct Q as [Q|Q]; try discriminate; [apply NA|apply NP]; unfold has in *; now rewrite deepcopy_keys in Q.
    - apply mbind_ok in E. destruct E as (h3 & w3 & w4 & e & E & H & _).
      apply mbind_ok in H. destruct H as (h4 & w5 & w6 & pl & EU & H & _).
      apply mbind_ok in H. destruct H as (h5 & w7 & w8 & d3 & E3 & H & _). apply read_ok in E3. destruct E3 as (-> & _ & E3).
      apply mbind_ok in H. destruct H as (h6 & w9 & w10 & d4 & E4 & H & _). apply read_ok in E4. destruct E4 as (-> & _ & E4).
      apply mbind_ok in H. destruct H as (h7 & w11 & w12 & u & _ & H & _). apply ret_ok in H. destruct H as (_ & _ & ->).
      assert (N3 : NoDup (dkeys d3)).
      { apply read_ok in E. destruct E as (-> & _ & _). destruct (update_ok C (Caller C p) e h d0 T) as (h8 & pl8 & U1 & U2 & _).
        rewrite U1 in EU. injection EU as <- <- <-. rewrite U2 in E3. apply Ok_inj in E3. subst d3. now apply keys_update. }
      apply copre_shape in E4. destruct E4 as (rot & ->). cbn [append].
      set (d5 := sset (deepcopy C h4 d3) "hlm" (VCplx C (combine ell2 rot))).
      assert (N5 : NoDup (dkeys d5)) by (apply keys_sset; now rewrite keys_copy).
      destruct (keys_spop d5 "amplm" N5) as (N6 & A6 & K6). destruct (keys_spop (spop d5 "amplm") "phaselm" N6) as (N7 & A7 & K7).
      split; [exact N7|]. exists rot. rewrite !slookup_spop by discriminate. split; [unfold d5; now rewrite slookup_sset, String.eqb_refl|].
      split; [|exact A7]. intros Q. apply K7 in Q. contradiction.
  Qed.
  Lemma chosen_strip level precessing frame h h' l d0 d : is_dict h p d0 -> NoDup (dkeys d0) -> one_representation d0 ->
    (precessing = true -> frame = "inertial" -> has d0 "amplm_zeroecc" -> polar_form) ->
    chosen C cabs cphase cpolar rotate level precessing frame p d0 h = (h', (l, Ok d)) ->
    ok h' /\ exists l2, chosen C cabs cphase cpolar rotate level precessing frame p (forget d0) (strip h) = (strip h', (l2, Ok (forget d))).
  Proof.
    intros Hd HN HR HP H. assert (O : ok h) by (eexists; exact Hd). unfold chosen in *.
    destruct (precessing && String.eqb frame "inertial") eqn:PF; [|apply ret_ok in H; destruct H as (-> & _ & ->); split; [exact O|eexists; reflexivity]].
    apply andb_prop in PF. destruct PF as [P1 P2]. apply String.eqb_eq in P2. specialize (HP P1 P2).
    apply mbind_ok in H. destruct H as (h1 & w1 & w2 & u & E & H & _).
    destruct (sim_log _ _ _ _ _ O E) as (O1 & l1 & E1). apply log_ok in E. destruct E as [-> _].
    apply mbind_ok in H. destruct H as (h2 & w3 & w4 & d1 & E & H & _).
    destruct (trans_strip level _ _ _ _ O E) as (O2 & l2 & E2).
    assert (G : h' = h2 /\ forget d = forget d1).
    { destruct (smem d1 "hlm_zeroecc" || smem d1 "amplm_zeroecc") eqn:Z; [|apply ret_ok in H; destruct H as (-> & _ & ->); auto].
      assert (T : top_of C h (Caller C p) = Ok d0) by (cbn [top_of]; now rewrite Hd).
      destruct (first_trans level _ _ _ _ _ Hd HN HR E) as (rot & X1 & X2 & X3).
      apply (trans_zero level d1 h2 h' w4 d rot); auto; [eapply trans_private; eauto|].
      destruct (smem d1 "hlm_zeroecc"); [auto|]. right. apply HP. cbn [orb] in Z. apply has_mem in Z.
      eapply trans_ok in E; [|exact T]. destruct E as (m & d2 & E & _). cbn [append] in E.
      assert (Q2 : has d2 "amplm_zeroecc").
      { assert (S1 : forall hh, has (sset (deepcopy C hh d2) "hlm" (VCplx C m)) "amplm_zeroecc" -> has d2 "amplm_zeroecc").
        { intros hh Q. apply has_sset in Q. destruct Q as [Q|Q]; [discriminate|]. unfold has in *. now rewrite deepcopy_keys in Q. }
        assert (S2 : forall (x : sdict dval) k, has (spop x k) "amplm_zeroecc" -> has x "amplm_zeroecc").
        { clear. intros x k. unfold has, spop. induction x as [|[y v] x IH]; cbn [dpop map fst]; [auto|]. destruct (String.eqb k y); cbn [map fst]; intros Q; [right; exact Q|]. destruct Q as [Q|Q]; [left; exact Q|right; apply IH; exact Q]. }
        destruct E as [(_ & _ & _ & [-> | ->])|(_ & _ & _ & r1 & -> & [-> | ->])]; eauto 10. }
      destruct E as [(_ & _ & -> & _)|(_ & (e & -> & He) & _)]; [exact Q2|].
      clear -Q2 He. destruct (slookup (dupdate String.eqb d0 e) "amplm_zeroecc") eqn:SL.
      2:{ apply lookup_has in Q2. destruct Q2 as (v & Q2). congruence. }
      destruct He as [He|He]; destruct e as [|[k1 v1] [|[k2 v2] [|]]]; cbn in He; try discriminate He; injection He; intros; subst; cbn [dupdate] in SL;
        repeat match type of SL with context [dset String.eqb ?d ?k ?v] => change (dset String.eqb d k v) with (sset d k v) in SL end;
        rewrite !slookup_sset in SL; cbn in SL; eapply has_lookup; exact SL. }
    destruct G as [-> ->]. split; [exact O2|]. exists (l1 ++ l2 ++ [])%list.
    unfold mbind at 1. rewrite E1. cbn [fst snd]. unfold mbind. rewrite E2. cbn [fst snd]. rewrite !smem_forget. reflexivity.
  Qed.
  Definition ffull (f : full C) : full C :=
    {| f_dict := forget (f_dict C f); f_t := f_t C f; f_t_merger := f_t_merger C f; f_amp_merger := f_amp_merger C f; f_width := f_width C f;
       f_phase := f_phase C f; f_phase_merger := f_phase_merger C f |}.
  Lemma apo_strip h d r : ok h -> get_amp_phase_omega_data C cabs cphase h d = Ok r ->
    get_amp_phase_omega_data C cabs cphase (strip h) (forget d) = Ok (forget r).
  Proof.
    intros O H. apply apo_shape in H. destruct H as (a & az & ph & pz & w & z & A1 & _ & P1 & _ & W & Z & ->).
    unfold get_amp_phase_omega_data, get_amplm_from_dataDict, get_phaselm_from_dataDict.
    rewrite amplm_strip, A1, amplm_zero, phaselm_strip, P1, phaselm_zero by exact O. cbn [bind app].
    change (sget [("amplm", VReal C a); ("phaselm", VReal C ph)] "phaselm") with (Ok (VReal C ph)). cbn [bind real_of].
    rewrite !slookup_forget, sget_forget by reflexivity. cbn [zeroecc_key existsb String.eqb Ascii.eqb Bool.eqb orb].
    replace (match slookup d "omegalm" with Some v => Ok v | None => do t <- (do v <- sget d "t"; arr_of C v); do o <- get_omegalm_from_phaselm t ph; Ok (VReal C o) end) with (Ok w).
    2:{ destruct (slookup d "omegalm"); [now subst|]. destruct W as (t & o & T & G & ->). unfold sget, dget. fold (slookup d "t"). rewrite T. cbn [bind arr_of]. now rewrite G. }
    cbn [bind]. change (slookup [("amplm", VReal C a); ("phaselm", VReal C ph)] "phaselm_zeroecc") with (@None dval). cbn [bind]. f_equal.
    unfold opt_entry. destruct az, pz, Z as [-> | (v & ->)]; reflexivity.
  Qed.
  Lemma rest_strip precessing d : sim ffull (rest C cabs cphase qsqrt precessing d) (rest C cabs cphase qsqrt precessing (forget d)).
  Proof.
    unfold rest. apply (sim_bind (fun t => t)).
    - rewrite slookup_forget. apply sim_lift. auto.
    - intros t. apply (sim_bind forget); [apply sim_read; intros; now apply apo_strip|]. intros apo. apply sim_read. intros h f O H.
      rewrite slookup_forget. cbn [zeroecc_key existsb String.eqb Ascii.eqb Bool.eqb orb app].
      set (nd := ("t", VArr C t) :: (match slookup d "t_zeroecc" with Some v => [("t_zeroecc", v)] | None => [] end ++ apo)%list) in *.
      replace (("t", VArr C t) :: forget apo) with (forget nd) by (unfold nd; destruct (slookup d "t_zeroecc"); reflexivity).
      clearbody nd. unfold merger_data in *. rewrite modes_strip, gw_strip by (auto; reflexivity).
      do 3 (apply bind_ok in H; let E := fresh in destruct H as (? & E & H); rewrite E; cbn [bind]). cbv zeta in *.
      do 2 (apply bind_ok in H; let E := fresh in destruct H as (? & E & H); rewrite E; cbn [bind]). destruct x3 as [[aa pp] oo].
      do 4 (apply bind_ok in H; let E := fresh in destruct H as (? & E & H); rewrite E; cbn [bind]).
      destruct (Qlt_bool _ _); [discriminate|]. destruct (Qlt_bool _ _); [discriminate|].
      apply bind_ok in H; let E := fresh in destruct H as (? & E & H); rewrite E; cbn [bind]. apply Ok_inj in H. subst f. reflexivity.
  Qed.
  Lemma cut_strip idx d k : zeroecc_key k = false -> sim forget (cut_entry C idx d k) (cut_entry C idx (forget d) k).
  Proof.
    intros Hk h h' l r O H. unfold cut_entry in *. rewrite sget_forget by exact Hk. destruct (sget d k) as [[| m | | q | ]|]; try discriminate.
    - injection H as <- <- <-. split; [exact O|]. exists []. rewrite forget_sset, Hk. reflexivity.
    - destruct (nth_error h q) as [[m| |]|] eqn:E; try discriminate. injection H as <- <- <-.
      assert (Hq : nth_error (strip h) q = Some (OReal C m)).
      { rewrite strip_at. destruct (Nat.eqb_spec q p) as [->|]; [|exact E]. destruct O as [d0 Hd]. congruence. }
      rewrite Hq. destruct (ok_set h q _ E O ltac:(congruence) (cut_modes idx m)) as [O2 S2]. split; [exact O2|]. exists []. now rewrite S2.
  Qed.
  Lemma truncate_strip num f : sim forget (truncate C num f) (truncate C num (ffull f)).
  Proof.
    unfold truncate. destruct num as [n|]; [|now apply sim_ret]. destruct (Qlt_bool n 0); [apply sim_lift; discriminate|].
    apply (sim_bind (fun i => i)); [apply sim_lift; auto|]. intros idx.
    apply (sim_bind forget); [now apply cut_strip|]. intros d1. apply (sim_bind forget); [now apply cut_strip|]. intros d2.
    apply (sim_bind forget); [now apply cut_strip|]. intros d3. apply sim_ret. rewrite forget_sset. reflexivity.
  Qed.
  Definition fproc (x : processed C) : processed C :=
    {| p_dict := forget (p_dict C x); p_t_merger := p_t_merger C x; p_amp_merger := p_amp_merger C x; p_width := p_width C x |}.
  Lemma process_strip level precessing frame num h h' l d0 r : is_dict h p d0 -> NoDup (dkeys d0) ->
    (precessing = true -> frame = "inertial" -> has d0 "amplm_zeroecc" -> polar_form) ->
    process_data_dict C cabs cphase cpolar rotate qsqrt level precessing frame num p h = (h', (l, Ok r)) ->
    ok h' /\ exists l2, process_data_dict C cabs cphase cpolar rotate qsqrt level precessing frame num p (strip h) = (strip h', (l2, Ok (fproc r))).
  Proof.
    intros Hd HN HP H. assert (O : ok h) by (eexists; exact Hd). rewrite process_reads in *.
    apply mbind_ok in H. destruct H as (h1 & w1 & w2 & f & E & H & _).
    assert (X : ok h1 /\ exists l1, readw level precessing frame p (strip h) = (strip h1, (l1, Ok (ffull f)))).
    { rewrite readw_eq in *. assert (T : top_of C h (Caller C p) = Ok d0) by (cbn [top_of]; now rewrite Hd).
      rewrite (step_read _ _ _ _ d0) in E by exact T. rewrite (step_read _ _ _ _ (forget d0)) by exact (top_strip h (Caller C p) d0 eq_refl O T).
      apply mbind_ok in E. destruct E as (h2 & w3 & w4 & [] & E1 & E & _). apply lift_ok in E1. destruct E1 as (-> & _ & E1).
      assert (E1' : check_representation C (forget d0) = Ok tt).
      { unfold check_representation in *. rewrite !smem_forget. cbn [zeroecc_key existsb String.eqb Ascii.eqb Bool.eqb orb].
        destruct (smem d0 "hlm" && (smem d0 "amplm" || smem d0 "phaselm")); [discriminate|].
        destruct (smem d0 "hlm_zeroecc" && _); [discriminate|]. exact E1. }
      rewrite (step_lift _ _ _ _ tt) by exact E1'.
      apply mbind_ok in E. destruct E as (h3 & w5 & w6 & d & E2 & E & _).
      destruct (chosen_strip level precessing frame _ _ _ _ _ Hd HN (proj1 (check_ok C d0) E1) HP E2) as (O3 & l3 & E3).
      destruct (rest_strip precessing d _ _ _ _ O3 E) as (O4 & l4 & E4). split; [exact O4|]. exists (l3 ++ l4)%list.
      unfold mbind. rewrite E3. cbn [fst snd]. rewrite E4. reflexivity. }
    destruct X as (O1 & l1 & X).
    assert (S : sim fproc (mbind C (truncate C num f) (fun d => mret C {| p_dict := d; p_t_merger := f_t_merger C f; p_amp_merger := f_amp_merger C f; p_width := f_width C f |}))
      (mbind C (truncate C num (ffull f)) (fun d => mret C {| p_dict := d; p_t_merger := f_t_merger C (ffull f); p_amp_merger := f_amp_merger C (ffull f); p_width := f_width C (ffull f) |}))).
    { apply (sim_bind forget); [apply truncate_strip|]. intros d. apply sim_ret. reflexivity. }
    destruct (S _ _ _ _ O1 H) as (O2 & l2 & E2). split; [exact O2|]. exists (l1 ++ l2)%list. unfold mbind at 1. rewrite X. cbn [fst snd]. rewrite E2. reflexivity.
  Qed.
End D.

(** ** the measurement *)
Section E.
  Variables (sv : list Q -> list Q -> nat -> Q -> Q) (pv : list Q -> list Q -> Q -> Q).
  Lemma get_same x y g1 g2 : sp_k g1 = sp_k g2 -> fst (get_interpolant x y false "spline" (Some g1)) = fst (get_interpolant x y false "spline" (Some g2)).
  Proof.
    intros H. unfold get_interpolant. destruct (negb _); [reflexivity|]. cbn [String.eqb Ascii.eqb Bool.eqb]. rewrite H.
    assert (F : forall e, fix_ext false e = 2%Z). { intros e. unfold fix_ext. cbn [andb negb]. destruct (Z.eqb_spec e 2); subst; reflexivity. }
    destruct (_ <? _); [reflexivity|]. destruct (_ <=? _); cbn [fst sp_ext sp_k]; now rewrite !F.
  Qed.
  Lemma interp_same ts x y g1 g2 : sp_k g1 = sp_k g2 -> interpolate sv pv ts x y false "spline" (Some g1) = interpolate sv pv ts x y false "spline" (Some g2).
  Proof. intros H. unfold interpolate. now rewrite (get_same x y g1 g2 H). Qed.

  Context {V : Type}.
  Variables (ecc_of : Q -> Q -> V) (vzero : V) (vneg : V -> bool) (find : bool -> res (list nat)) (rfit : list Q -> list Q -> Z * Z -> res curve)
            (slope : list Q -> list V -> list bool).
  Variables (level : Z) (c1 c2 : config).
  Hypotheses (E1 : c_t c1 = c_t c2) (E2 : c_data_t c1 = c_data_t c2) (E3 : c_phase c1 = c_phase c2) (E4 : c_omega c1 = c_omega c2) (E5 : c_ref c1 = c_ref c2)
    (E6 : c_scalar c1 = c_scalar c2) (E7 : c_precessing c1 = c_precessing c2) (E8 : c_filtered c1 = c_filtered c2) (E9 : c_midpoints c1 = c_midpoints c2)
    (E10 : c_return_zero c1 = c_return_zero c2) (E11 : c_interp c1 = c_interp c2) (E12 : c_average c1 = c_average c2) (E13 : c_use_only c1 = c_use_only c2)
    (E14 : c_special c1 = c_special c2) (E15 : sp_k (c_general c1) = sp_k (c_general c2))
    (HZ : (exists tr, c_ref c1 = TimeRef tr) \/ c_average c1 <> "omega_gw_zeroecc").
  Definition aeq {A} (m1 m2 : act A) : Prop := forall s, m1 s = m2 s.
  Lemma aeq_bind {A B} (m1 m2 : act A) (k1 k2 : A -> act B) : aeq m1 m2 -> (forall a, aeq (k1 a) (k2 a)) -> aeq (abind m1 k1) (abind m2 k2).
  Proof. intros H K s. unfold abind. rewrite H. destruct (m2 s) as [w [s1 [a|e]]]; [|reflexivity]. now rewrite K. Qed.
  Lemma aeq_refl {A} (m : act A) : aeq m m. Proof. intros s. reflexivity. Qed.
  Ltac go := repeat first [apply aeq_refl | apply aeq_bind; [|intros] | match goal with |- aeq (match ?x with _ => _ end) (match ?x with _ => _ end) => destruct x end].
  Lemma curve_same n m ts loc : aeq (extrema_curve sv pv rfit level c1 n m ts loc) (extrema_curve sv pv rfit level c2 n m ts loc).
  Proof. unfold extrema_curve, rational_curve. rewrite E1, E4, E11, E14. go. Qed.
  Lemma average_same m : m <> "omega_gw_zeroecc" -> aeq (get_omega_gw_average sv pv c1 (Some m)) (get_omega_gw_average sv pv c2 (Some m)).
  Proof.
    intros N. unfold get_omega_gw_average, run_averaging, orbit_averaged, average_times, orbit_averages. cbv zeta. rewrite E1, E3.
    apply String.eqb_neq in N. rewrite N. apply aeq_bind; [go|]. intros w. apply aeq_bind; [|intros; go].
    destruct (String.eqb m "mean_of_extrema_interpolants"); [go|]. destruct (String.eqb m "orbit_averaged_omega_gw"); [|go].
    do 4 (apply aeq_bind; [go|intros]). intros s. unfold alift. do 2 f_equal.
    repeat match goal with |- (do _ <- ?x; _) = (do _ <- ?x; _) => destruct x; cbn [bind]; [|reflexivity] end. now apply interp_same.
  Qed.
  Lemma tref_same fr : c_average c1 <> "omega_gw_zeroecc" -> aeq (tref_fref_from_fref sv pv level c1 fr) (tref_fref_from_fref sv pv level c2 fr).
  Proof.
    intros N. unfold tref_fref_from_fref, get_fref_out, get_fref_bounds. cbv zeta. rewrite E12 in N |- *. rewrite E13. destruct (existsb _ _); [|go].
    apply aeq_bind.
    - apply aeq_bind; [|intros; go]. apply aeq_bind; [go|intros]. apply aeq_bind; [go|intros]. apply aeq_bind; [|intros; go].
      destruct a0; [go|]. apply aeq_bind; [now apply average_same|intros; go].
    - intros fo. apply aeq_bind; [now apply average_same|intros]. apply aeq_bind; [go|intros]. apply aeq_bind; [go|intros].
      apply aeq_bind; [|intros; go]. intros s. unfold alift. do 2 f_equal. now apply interp_same.
  Qed.
  Lemma result_same e m r : make_result c1 e m r = make_result (V := V) c2 e m r.
  Proof. unfold make_result. now rewrite E5, E6. Qed.
  Lemma check_same fp fa lo hi ts : aeq (check_ecc_monotone ecc_of slope level c1 fp fa lo hi ts) (check_ecc_monotone ecc_of slope level c2 fp fa lo hi ts).
  Proof.
    unfold check_ecc_monotone. apply aeq_bind; [go|intros]. apply aeq_bind; [|intros; go]. destruct a; [go|].
    apply aeq_bind; [go|intros]. apply aeq_bind; [go|intros]. apply aeq_bind; [|intros; go]. intros s. unfold alift. do 2 f_equal. now apply get_same.
  Qed.
  Lemma measure_same : aeq (measure_ecc ecc_of vzero vneg find sv pv rfit slope level c1) (measure_ecc ecc_of vzero vneg find sv pv rfit slope level c2).
  Proof.
    unfold measure_ecc, check_num_extrema. rewrite E1, E3, E7, E8, E9, E10.
    do 4 (apply aeq_bind; [go|intros]).
    destruct (_ && _).
    - apply aeq_bind; [go|intros]. unfold zero_result. rewrite E5, result_same. go.
    - do 9 (apply aeq_bind; [go|intros]).
      unfold measure_from_extrema. rewrite E1, E2, E5. do 7 (apply aeq_bind; [go|intros]).
      apply aeq_bind; [apply curve_same|intros]. do 2 (apply aeq_bind; [go|intros]). apply aeq_bind; [apply curve_same|intros]. apply aeq_bind; [go|intros].
      apply aeq_bind. { rewrite <- E5. destruct (c_ref c1) eqn:R; [go|]. apply tref_same. destruct HZ as [[tr Z]|Z]; [congruence|exact Z]. }
      intros tf. do 7 (apply aeq_bind; [go|intros]). apply aeq_bind; [apply check_same|intros]. apply aeq_bind; [go|intros].
      rewrite result_same. go.
  Qed.
End E.

(** ** the call *)
Section W.
  Context {C V : Type} (L : library C V).
  Notation world := (world C).
  Variable p : nat.
  Lemma warn_ok level keys : snd (warn_unknown level keys) = Ok tt <->
    forall k, In k keys -> existsb (String.eqb k) recognized_keys = true \/ snd (dbg "not a recognized key word in dataDict" level false) = Ok tt.
  Proof.
    induction keys as [|k keys IH]; cbn [warn_unknown].
    - split; [intros _ k []|reflexivity].
    - unfold lbind. split.
      + intros H x [<-|Hx].
        * destruct (existsb _ _); [auto|]. right. destruct (snd (dbg _ _ _)) as [[]|]; [reflexivity|discriminate].
        * apply IH; [|exact Hx]. destruct (existsb _ _); cbn [lret lift snd fst] in H; [exact H|]. destruct (snd (dbg _ _ _)); [exact H|discriminate].
      + intros H. assert (R : snd (warn_unknown level keys) = Ok tt) by (apply IH; intros; apply H; now right).
        destruct (existsb _ _) eqn:X; cbn [lret lift snd fst]; [exact R|]. destruct (H k (or_introl eq_refl)) as [Y|Y]; [congruence|]. rewrite Y. exact R.
  Qed.
  Definition wstrip (w : world) : world := {| wd_heap := strip C p (wd_heap w); wd_extra := wd_extra w |}.
  Lemma wstep_ok' {A B} (m : W A) (k : A -> W B) (w w1 : world) l a : m w = (w1, (l, Ok a)) -> forall w2 l2 b, k a w1 = (w2, (l2, Ok b)) -> wbind m k w = (w2, ((l ++ l2)%list, Ok b)).
  Proof. intros H w2 l2 b H2. unfold wbind. rewrite H. cbn [fst snd]. rewrite H2. reflexivity. Qed.
  Definition core_filter : Prop := forall d tm fk, lib_filter L (forget d) tm fk = lib_filter L d tm fk.
  Lemma filter_strip tm d (w w' : world) l x : core_filter -> ok C p (wd_heap w) -> filter_step L tm d w = (w', (l, Ok x)) ->
    filter_step L tm (forget d) (wstrip w) = (wstrip w', (l, Ok x)).
  Proof.
    intros HF O. unfold filter_step, wbind, wlift, wread, wlog, set_extra, wret, lift, lret, wstrip. cbn [fst snd wd_heap wd_extra].
    destruct w as [h e]. cbn [wd_heap wd_extra] in *.
    destruct (match slookup _ "filter_kwargs" with Some v => subdict v | None => Ok (Some []) end) as [u|]; cbn [fst snd wd_heap wd_extra]; [|discriminate].
    destruct (check_kwargs_and_set_defaults u default_filter) as [fk|]; cbn [fst snd wd_heap wd_extra]; [|discriminate].
    assert (K : lib_filter L (deepcopy C (strip C p h) (forget d)) tm fk = lib_filter L (deepcopy C h d) tm fk).
    { rewrite copy_strip by exact O. rewrite <- forget_deepcopy. apply HF. }
    destruct e as [e|]; [destruct (slookup e "filter_kwargs") as [[]|]|]; cbn [fst snd wd_heap wd_extra]; rewrite ?K;
      (destruct (lib_filter L (deepcopy C h d) tm fk) as [lz [fl|]]; cbn [fst snd wd_heap wd_extra]; [|discriminate]); intros H; injection H as <- <- <-; reflexivity.
  Qed.
  Definition same_base (b1 b2 : base) : Prop :=
    b_wave b1 = b_wave b2 /\ b_t_merger b1 = b_t_merger b2 /\ b_amp_merger b1 = b_amp_merger b2 /\ b_extrema_kwargs b1 = b_extrema_kwargs b2 /\
    b_fits_kwargs b1 = b_fits_kwargs b2 /\ b_degrees b1 = b_degrees b2 /\ b_refine b1 = b_refine b2 /\
    let c1 := b_config b1 in let c2 := b_config b2 in
    c_t c1 = c_t c2 /\ c_data_t c1 = c_data_t c2 /\ c_phase c1 = c_phase c2 /\ c_omega c1 = c_omega c2 /\ c_ref c1 = c_ref c2 /\
    c_scalar c1 = c_scalar c2 /\ c_precessing c1 = c_precessing c2 /\ c_filtered c1 = c_filtered c2 /\ c_midpoints c1 = c_midpoints c2 /\
    c_return_zero c1 = c_return_zero c2 /\ c_interp c1 = c_interp c2 /\ c_average c1 = c_average c2 /\ c_use_only c1 = c_use_only c2 /\
    c_special c1 = c_special c2 /\ sp_k (c_general c1) = sp_k (c_general c2).
  Lemma residual_k h precessing d w tm g r g2 : compute_residual L h precessing d w tm g = Ok (r, g2) -> sp_k g2 = sp_k g.
  Proof.
    unfold compute_residual. intros H. do 2 (apply bind_ok in H; destruct H as (? & _ & H)). apply bind_ok in H; destruct H as ([[az pz] oz] & _ & H).
    do 3 (apply bind_ok in H; destruct H as (? & _ & H)). cbv zeta in H. do 2 (apply bind_ok in H; destruct H as (? & _ & H)).
    destruct (Qlt_bool _ _); [discriminate|]. apply bind_ok in H; destruct H as (? & _ & H). destruct (Qlt_bool _ _); [discriminate|].
    do 4 (apply bind_ok in H; destruct H as (? & _ & H)). apply Ok_inj in H. injection H as _ <-.
    match goal with |- context [snd (get_interpolant ?x ?y true "spline" (Some g))] => destruct (get_interpolant_k_unchanged x y true "spline" g) as (g1 & G1 & K1) end.
    rewrite G1. match goal with |- context [snd (get_interpolant ?x ?y true "spline" (Some g1))] => destruct (get_interpolant_k_unchanged x y true "spline" g1) as (g3 & G3 & K3) end.
    rewrite G3. congruence.
  Qed.
  Lemma init_strip a (w w' : world) l b d0 : is_dict (wd_heap w) p d0 -> NoDup (dkeys d0) ->
    (a_precessing a = true -> core_filter) ->
    (a_precessing a = true -> a_frame a = "inertial" -> has d0 "amplm_zeroecc" -> polar_form C (lib_abs L) (lib_phase L) (lib_polar L)) ->
    init L a p w = (w', (l, Ok b)) ->
    exists l2 b2, init L a p (wstrip w) = (wstrip w', (l2, Ok b2)) /\ same_base b b2.
  Proof.
    intros Hd HN HF HP H. pose proof H as H0. apply init_ok in H0.
    destruct H0 as (rf & pd & t & gw & fl & extra & ek & n & wv & op & user & rs & l1 & l2 & h' & I1 & I2 & I3 & I4 & I5 & I6 & I7 & I8 & I9 & I10 & I11 & I12 & I13 & I14 & I15 & -> & _).
    destruct (process_strip C (lib_abs L) (lib_phase L) (lib_polar L) (lib_rotate L) (lib_sqrt L) p _ _ _ _ _ _ _ _ _ Hd HN HP I3) as (O' & l1' & P').
    assert (F' : filter_part L a (fproc C pd) gw (wstrip {| wd_heap := h'; wd_extra := wd_extra w |}) = (wstrip w', (l2, Ok (fl, extra)))).
    { unfold filter_part in *. destruct (a_precessing a) eqn:PR.
      - apply filter_strip; auto.
      - injection I7 as <- <- <- <-. reflexivity. }
    assert (U : is_dict (strip C p h') p (forget user)). { unfold is_dict in *. rewrite strip_at, Nat.eqb_refl, I13. reflexivity. }
    assert (Wn : snd (warn_unknown (a_level a) (dkeys (forget user))) = Ok tt).
    { apply warn_ok. intros k Hk. apply forget_keys in Hk. now apply (proj1 (warn_ok _ _) I14). }
    destruct (use_segment (lib_secular L) (a_level a) n {| w_t := t; w_amp := fl_amp fl; w_phase := fl_phase fl; w_omega := fl_omega fl |} (ref_is_time (fst rf)) (ref_list (fst rf))) as [l3 r3] eqn:US.
    cbn [snd] in I11. subst r3.
    destruct (warn_unknown (a_level a) (dkeys (forget user))) as [l4 r4] eqn:WU. cbn [snd] in Wn. subst r4.
    eexists. exists (base_of a rf (fproc C pd) t fl n wv op (None, op_general op)). split.
    - unfold init. eapply wstep_ok'. { unfold wlift, lift. rewrite I1. reflexivity. }
      eapply wstep_ok'. { unfold wlift, lift. replace (existsb _ _) with true; [reflexivity|]. symmetry. apply existsb_exists. exists (a_frame a). split; [exact I2|apply String.eqb_refl]. }
      eapply wstep_ok'. { unfold on_heap, wstrip. cbn [wd_heap wd_extra]. unfold process in P'. rewrite P'. cbn [fst snd]. reflexivity. }
      eapply wstep_ok'. { unfold wlift, lift. cbn [fproc p_dict]. rewrite sget_forget by reflexivity. unfold sget, dget. fold (slookup (p_dict C pd) "t"). rewrite I4. cbn [bind arr_of]. reflexivity. }
      eapply wstep_ok'. { unfold wlift, lift. rewrite I5. reflexivity. }
      eapply wstep_ok'. { unfold wread, lift. cbn [wd_heap fproc p_dict]. rewrite gw_strip by exact O'. rewrite I6. reflexivity. }
      eapply wstep_ok'. { exact F'. }
      cbn [fst snd]. eapply wstep_ok'. { unfold wlift, lift. rewrite I9. reflexivity. }
      eapply wstep_ok'. { unfold wlift, lift. rewrite I10. reflexivity. }
      eapply wstep_ok'. { unfold wlog. fold (ref_is_time (fst rf)) (ref_list (fst rf)). rewrite US. reflexivity. }
      eapply wstep_ok'. { unfold wlift, lift. cbn [fproc p_width]. rewrite I12. reflexivity. }
      eapply wstep_ok'. { unfold wread, lift. cbn [wstrip wd_heap top_of]. rewrite I8. rewrite U. reflexivity. }
      eapply wstep_ok'. { unfold wlog. rewrite WU. reflexivity. }
      eapply wstep_ok'. { unfold wread, lift. cbn [fproc p_dict]. rewrite !smem_forget. reflexivity. }
      reflexivity.
    - unfold same_base, base_of. cbn. repeat (split; [reflexivity|]).
      unfold residual_part in I15. destruct (_ && _); [|apply Ok_inj in I15; now subst].
      apply bind_ok in I15. destruct I15 as ([r g2] & R1 & R2). apply Ok_inj in R2. subst rs. cbn [fst snd]. eapply residual_k; eauto.
  Qed.
  Lemma build_strip m a (w w' : world) l o d0 : In m ["Amplitude"; "Frequency"; "AmplitudeFits"; "FrequencyFits"] -> is_dict (wd_heap w) p d0 -> NoDup (dkeys d0) ->
    (a_precessing a = true -> core_filter) ->
    (a_precessing a = true -> a_frame a = "inertial" -> has d0 "amplm_zeroecc" -> polar_form C (lib_abs L) (lib_phase L) (lib_polar L)) ->
    build L m a p w = (w', (l, Ok o)) ->
    exists l2 o2, build L m a p (wstrip w) = (wstrip w', (l2, Ok o2)) /\ same_base (o_base o) (o_base o2) /\ o_method o = o_method o2 /\ o_data o = o_data o2 /\ o_fits o = o_fits o2.
  Proof.
    intros Hm Hd HN HF HP H. unfold build in *. apply wbind_ok in H. destruct H as (w1 & l1 & l3 & b & E & H & _). cbv zeta in H.
    destruct (init_strip a _ _ _ _ _ Hd HN HF HP E) as (l2 & b2 & E2 & B). unfold wbind at 1. rewrite E2. cbn [fst snd].
    pose proof B as B'. destruct B' as (B1 & B2 & B3 & B4 & B5 & _).
    destruct Hm as [<-|[<-|[<-|[<-|[]]]]]; cbn [String.eqb Ascii.eqb Bool.eqb] in *.
    - apply wret_ok in H. destruct H as (-> & _ & ->). rewrite <- B1. do 2 eexists. split; [reflexivity|]. cbn. auto.
    - apply wret_ok in H. destruct H as (-> & _ & ->). rewrite <- B1. do 2 eexists. split; [reflexivity|]. cbn. auto.
    - apply wbind_ok in H. destruct H as (w2 & ? & ? & fk & X1 & H & ->). apply wlift_ok in X1. destruct X1 as (-> & -> & X1).
      apply wbind_ok in H. destruct H as (w3 & ? & ? & dt & X2 & H & ->). apply wlift_ok in X2. destruct X2 as (-> & -> & X2).
      apply wret_ok in H. destruct H as (-> & -> & ->). rewrite <- B1, <- B3, <- B5. unfold wbind, wlift, lift. rewrite X1, X2. do 2 eexists. split; [reflexivity|]. cbn. auto.
    - apply wbind_ok in H. destruct H as (w2 & ? & ? & fk & X1 & H & ->). apply wlift_ok in X1. destruct X1 as (-> & -> & X1).
      apply wbind_ok in H. destruct H as (w3 & ? & ? & dt & X2 & H & ->). apply wlift_ok in X2. destruct X2 as (-> & -> & X2).
      apply wret_ok in H. destruct H as (-> & -> & ->). apply Ok_inj in X2. subst dt. rewrite <- B1, <- B5. unfold wbind, wlift, lift. rewrite X1. do 2 eexists. split; [reflexivity|]. cbn. auto.
  Qed.
  Lemma average_option a (w w' : world) l b : init L a p w = (w', (l, Ok b)) -> c_average (b_config b) = "omega_gw_zeroecc" ->
    exists e, wd_extra w = Some e /\ slookup e "omega_gw_averaging_method" = Some (Leaf (LStr "omega_gw_zeroecc")).
  Proof.
    intros H Ha. apply init_ok in H.
    destruct H as (rf & pd & t & gw & fl & extra & ek & n & wv & op & user & rs & m1 & m2 & h' & _ & _ & _ & _ & _ & _ & F & _ & K & _ & _ & O & _ & _ & _ & B & _).
    subst b. cbn [base_of b_config c_average] in Ha.
    destruct (options_ok _ _ _ O) as (_ & _ & _ & _ & (v & V5 & E5) & _). rewrite Ha in E5.
    assert (v = Leaf (LStr "omega_gw_zeroecc")). { destruct v as [[]|]; cbn in E5; try discriminate. now subst. } subst v.
    apply kwargs_ok in K. destruct K as [_ ->]. rewrite fill_lookup in V5.
    apply filter_part_ok in F. cbn [wd_extra] in F. destruct F as [(_ & _ & -> & _)|(_ & u & fk & _ & _ & _ & -> & _)].
    - destruct (wd_extra w) as [e|]; [|discriminate]. exists e. split; [reflexivity|]. destruct (slookup e _); [exact V5|discriminate].
    - rewrite slookup_sset in V5. cbn [String.eqb Ascii.eqb Bool.eqb] in V5. destruct (wd_extra w) as [e|]; [|discriminate]. exists e. split; [reflexivity|].
      destruct (slookup e _); [exact V5|discriminate].
  Qed.
  Lemma zeroecc_ignored m a (w w' : world) l d0 r : In m ["Amplitude"; "Frequency"; "AmplitudeFits"; "FrequencyFits"] -> is_dict (wd_heap w) p d0 -> NoDup (dkeys d0) ->
    (a_precessing a = true -> core_filter) ->
    (a_precessing a = true -> a_frame a = "inertial" -> has d0 "amplm_zeroecc" -> polar_form C (lib_abs L) (lib_phase L) (lib_polar L)) ->
    (a_fref a = None \/ forall e, wd_extra w = Some e -> slookup e "omega_gw_averaging_method" <> Some (Leaf (LStr "omega_gw_zeroecc"))) ->
    measure_eccentricity L m a p w = (w', (l, Ok r)) ->
    exists w2' l2 r2, measure_eccentricity L m a p (wstrip w) = (w2', (l2, Ok r2)) /\
      forall k, In k ["eccentricity"; "mean_anomaly"; "tref_out"; "fref_out"] -> slookup r2 k = slookup r k.
  Proof.
    intros Hm Hd HN HF HP HA H. unfold measure_eccentricity in *. destruct (existsb _ _); [|discriminate].
    apply wbind_ok in H. destruct H as (w1 & l1 & l2 & o & E & H & _). cbv zeta in H.
    apply wbind_ok in H. destruct H as (w3 & l3 & l4 & x & E3 & H & _). apply wlog_ok in E3. destruct E3 as (-> & _ & E3).
    apply wret_ok in H. destruct H as (_ & _ & ->). cbn [snd] in E3.
    destruct (build_strip m a _ _ _ _ _ Hm Hd HN HF HP E) as (l5 & o2 & E5 & B & M1 & M2 & M3).
    assert (S : measure_object L (a_level a) o2 = measure_object L (a_level a) o).
    { destruct B as (B1 & B2 & B3 & B4 & B5 & B6 & BR & B7). cbv zeta in B7.
      destruct B7 as (X1 & X2 & X3 & X4 & X5 & X6 & X7 & X8 & X9 & X10 & X11 & X12 & X13 & X14 & X15).
      unfold measure_object. rewrite <- B6.
      assert (F : forall b, find_extrema L o2 b = find_extrema L o b). { intros b. unfold find_extrema. now rewrite <- M1, <- M2, <- M3, <- B1, <- B2, <- B4, <- BR. }
      transitivity (measure_ecc (lib_ecc L) (lib_zero L) (lib_negative L) (find_extrema L o) (lib_spline L) (lib_pchip L) (lib_rational L) (lib_slope L) (a_level a)
        (b_config (o_base o2)) (fresh (b_degrees (o_base o)))).
      - unfold measure_ecc. unfold abind at 1. rewrite (F true). symmetry. unfold abind at 1. cbn [alift]. destruct (find_extrema L o true); [|reflexivity].
        rewrite (F false). reflexivity.
      - symmetry. apply (measure_same (lib_spline L) (lib_pchip L)); auto.
        apply build_method in E. destruct E as (_ & w4 & l6 & E & _). destruct HA as [HA|HA].
        + left. apply init_ok in E. destruct E as (rf & pd & t & gw & fl & extra & ek & n & wv & op & user & rs & m1 & m2 & h' & R & _ & _ & _ & _ & _ & _ & _ & _ & _ & _ & _ & _ & _ & _ & -> & _).
          cbn [base_of b_config c_ref]. unfold reference_of in R. rewrite HA in R. destruct (a_tref a); [|discriminate]. apply Ok_inj in R. subst rf. eexists. reflexivity.
        + right. intros Q. destruct (average_option _ _ _ _ _ E Q) as (e & He & Hk). now apply (HA e He). }
    do 2 eexists. exists (dupdate String.eqb (return_dict x) [("gwecc_object", EObject o2 (fst (snd (measure_object L (a_level a) o2))))]). split.
    - eapply wstep_ok'; [exact E5|]. cbv zeta. eapply wstep_ok'. { unfold wlog. rewrite S, E3. reflexivity. } unfold wret, lret, lift. rewrite S. reflexivity.
    - intros k Hk. cbn [dupdate]. fold (sset (return_dict x) "gwecc_object" (EObject o (fst (snd (measure_object L (a_level a) o))))).
      match goal with |- context [dset String.eqb ?d ?k ?v] => change (dset String.eqb d k v) with (sset d k v) end.
      rewrite !slookup_sset. destruct Hk as [<-|[<-|[<-|[<-|[]]]]]; reflexivity.
  Qed.
End W.

Lemma zeroecc_unused {C V} (L : library C V) m a p (w w' : world C) l d0 r :
  In m ["Amplitude"; "Frequency"; "AmplitudeFits"; "FrequencyFits"] -> is_dict (wd_heap w) p d0 -> NoDup (dkeys d0) ->
  (a_precessing a = true -> blind_filter L) ->
  (a_precessing a = true -> a_frame a = "inertial" -> has d0 "amplm_zeroecc" -> polar_numbers L) ->
  (a_fref a = None \/ forall e, wd_extra w = Some e -> slookup e "omega_gw_averaging_method" <> Some (Leaf (LStr "omega_gw_zeroecc"))) ->
  measure_eccentricity L m a p w = (w', (l, Ok r)) ->
  exists w2' l2 r2, measure_eccentricity L m a p {| wd_heap := set_nth (wd_heap w) p (OTop C (without_zeroecc d0)); wd_extra := wd_extra w |} = (w2', (l2, Ok r2)) /\
    forall k, In k ["eccentricity"; "mean_anomaly"; "tref_out"; "fref_out"] -> slookup r2 k = slookup r k.
Proof.
  intros Hm Hd HN HF HP HA H. pose proof (zeroecc_ignored L p m a w w' l d0 r Hm Hd HN HF HP HA H) as R.
  unfold wstrip, strip in R. unfold is_dict in Hd. rewrite Hd in R. exact R.
Qed.

(** ** incomplete zeroecc data *)
Section Incomplete.
  Context {C V : Type} (L : library C V).
  Lemma apo_has cabs cphase h (d : sdict (dval C)) r m0 x : get_amp_phase_omega_data C cabs cphase h d = Ok r -> has d "omegalm_zeroecc" ->
    array_of h d "amplm_zeroecc" m0 x -> has r "amplm_zeroecc" /\ has r "omegalm_zeroecc".
  Proof.
    unfold get_amp_phase_omega_data. intros H HO HA. apply bind_ok in H. destruct H as (a & Ea & H). apply bind_ok in H. destruct H as (p & Ep & H).
    apply amplm_shape in Ea. destruct Ea as (a0 & az & _ & Ea & ->). apply phaselm_shape in Ep. destruct Ep as (p0 & pz & _ & Ep & ->).
    cbv zeta in H. apply bind_ok in H. destruct H as (pm & _ & H). apply bind_ok in H. destruct H as (om & _ & H).
    apply bind_ok in H. destruct H as (z & Ez & H). apply Ok_inj in H. subst r.
    apply lookup_has in HO. destruct HO as [v HO]. rewrite HO in Ez. apply Ok_inj in Ez. subst z.
    assert (N : az <> []).
    { intros ->. destruct HA as (u & HA & K). unfold amplm_for in Ea. change ("amplm" ++ "_zeroecc") with "amplm_zeroecc" in Ea.
      rewrite HA in Ea. destruct K as [(ms & -> & K)|(q & ms & -> & K1 & K)]; cbn [real_of] in Ea; [|rewrite K1 in Ea];
        apply Ok_inj in Ea; subst ms; discriminate. }
    unfold has. rewrite !map_app. cbn [map fst]. destruct az as [|y az]; [contradiction|]. cbn. destruct pz; cbn; auto 10.
  Qed.
  Lemma process_incomplete a p h h' l pd d0 m0 x : process L a p h = (h', (l, Ok pd)) -> a_precessing a = false \/ a_frame a = "coprecessing" ->
    is_dict h p d0 -> has d0 "omegalm_zeroecc" -> array_of h d0 "amplm_zeroecc" m0 x -> ~ has d0 "t_zeroecc" ->
    smem (p_dict C pd) "amplm_zeroecc" = true /\ smem (p_dict C pd) "omegalm_zeroecc" = true /\ slookup (p_dict C pd) "t_zeroecc" = None.
  Proof.
    intros H Hp Hd HO HA HT. unfold process in H. rewrite process_reads in H.
    apply mbind_ok in H. destruct H as [h1 [w1 [w2 [f [E [E2 _]]]]]].
    pose proof (readw_ok _ _ _ _ _ _ _ _ _ _ _ _ _ _ E) as (d1 & d2 & t2 & tz & a2 & az & ph & pz & om & z & _ & _ & _ & _ & _ & _ & _ & Hd2 & Ht2 & _).
    rewrite readw_eq in E. apply mbind_ok in E. destruct E as [h2 [w3 [w4 [d [E [E3 _]]]]]]. apply read_ok in E. destruct E as (-> & _ & E).
    apply top_ok in E. assert (d = d0) by (unfold is_dict in *; congruence). subst d.
    apply mbind_ok in E3. destruct E3 as [h3 [w5 [w6 [[] [E4 [E3 _]]]]]]. apply lift_ok in E4. destruct E4 as (-> & _ & _).
    assert (Hp' : a_precessing a = false \/ a_frame a <> "inertial") by (destruct Hp as [Hp|Hp]; [auto|right; rewrite Hp; discriminate]).
    rewrite (step_ok _ _ _ _ _ _ (chosen_plain C (lib_abs L) (lib_phase L) (lib_polar L) (lib_rotate L) (a_level a) (a_precessing a) (a_frame a) p d0 h Hp')) in E3.
    unfold rest in E3. apply mbind_ok in E3. destruct E3 as [h4 [w7 [w8 [t [X1 [E3 _]]]]]]. apply lift_ok in X1. destruct X1 as (-> & _ & X1).
    apply mbind_ok in E3. destruct E3 as [h5 [w9 [w10 [apo [X2 [E3 _]]]]]]. apply read_ok in X2. destruct X2 as (-> & _ & X2).
    apply read_ok in E3. destruct E3 as (-> & _ & E3).
    assert (D : f_dict C f = (("t", VArr C t) :: match slookup d0 "t_zeroecc" with Some v => [("t_zeroecc", v)] | None => [] end ++ apo)%list).
    { apply mdata_ok in E3. destruct E3 as (i & o & om' & p0 & _ & _ & _ & _ & _ & _ & _ & _ & _ & D & _). exact D. }
    pose proof (apo_has _ _ _ _ _ _ _ X2 HO HA) as [A1 A2]. pose proof (apo_zero _ _ _ _ _ _ X2) as (_ & _ & A3).
    assert (NT : slookup d0 "t_zeroecc" = None). { destruct (slookup d0 "t_zeroecc") eqn:ET; [|reflexivity]. exfalso. apply HT. eapply has_lookup; eauto. }
    rewrite NT in D. cbn [app] in D.
    apply mbind_ok in E2. destruct E2 as [h6 [w11 [w12 [nd [X3 [E2 _]]]]]]. apply ret_ok in E2. destruct E2 as (-> & _ & ->). cbn [p_dict].
    assert (S : forall k, In k ["t_zeroecc"; "amplm_zeroecc"; "omegalm_zeroecc"] -> slookup nd k = slookup (f_dict C f) k).
    { intros k Hk. destruct (a_num a) as [n|].
      - eapply truncate_ok in X3; eauto. destruct X3 as (_ & _ & idx & _ & _ & _ & _ & _ & X3). apply X3. cbn in *. intuition (subst; discriminate).
      - apply ret_ok in X3. destruct X3 as (_ & _ & ->). reflexivity. }
    unfold smem, dmem. fold (slookup nd "amplm_zeroecc") (slookup nd "omegalm_zeroecc"). rewrite !S by (cbn; auto). rewrite D.
    apply lookup_has in A1, A2. destruct A1 as [v1 A1], A2 as [v2 A2]. unfold slookup in *. cbn [dlookup String.eqb Ascii.eqb Bool.eqb]. rewrite A1, A2.
    split; [reflexivity|]. split; [reflexivity|]. destruct (dlookup String.eqb apo "t_zeroecc") as [v3|] eqn:K; [|reflexivity].
    exfalso. apply A3. eapply has_lookup; eauto.
  Qed.
  Lemma incomplete_rejected m a p (w w' : world C) l d d0 m0 x : a_precessing a = false \/ a_frame a = "coprecessing" ->
    is_dict (wd_heap w) p d0 -> has d0 "omegalm_zeroecc" -> array_of (wd_heap w) d0 "amplm_zeroecc" m0 x -> ~ has d0 "t_zeroecc" ->
    measure_eccentricity L m a p w <> (w', (l, Ok d)).
  Proof.
    intros Hp Hd HO HA HT H. apply measure_ok in H. destruct H as (_ & o & s & r & l1 & l2 & H & _).
    unfold build in H. apply wbind_ok in H. destruct H as (w1 & m1 & m2 & b & H1 & _).
    apply init_ok in H1. destruct H1 as (rf & pd & t & gw & fl & extra & ek & n & wv & op & user & rs & k1 & k2 & h' & _ & _ & P & _ & _ & _ & _ & _ & _ & _ & _ & _ & _ & _ & R & _).
    destruct (process_incomplete _ _ _ _ _ _ _ _ _ P Hp Hd HO HA HT) as (I1 & I2 & I3).
    unfold residual_part in R. rewrite I1, I2 in R. cbn [andb] in R. apply bind_ok in R. destruct R as (y & R & _).
    unfold compute_residual, sget, dget in R. unfold slookup in I3. rewrite I3 in R. discriminate.
  Qed.
End Incomplete.
