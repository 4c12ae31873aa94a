(** Proofs about the reading and truncation of the waveform dictionary. *)
From Verif Require Import Base BaseLemmas UtilsModel UtilsSpec SegmentModel SegmentSpec SegmentLemmas DataModel DataSpec.
Open Scope string_scope.
Open Scope nat_scope.

Section S.
  Variable C : Type.
  Variable cabs cphase : C -> list Q.
  Variable cpolar : list Q -> list Q -> res C.
  Variable rotate : list Q -> list C -> res (list C).
  Variable qsqrt : Q -> Q.
  Notation heap := (heap C). Notation dval := (dval C).

  Lemma mbind_ok {A B} (m : M C A) (k : A -> M C B) h h' w b :
    mbind C m k h = (h', (w, Ok b)) ->
    exists h1 w1 w2 a, m h = (h1, (w1, Ok a)) /\ k a h1 = (h', (w2, Ok b)) /\ w = (w1 ++ w2)%list.
  Proof.
    unfold mbind. destruct (m h) as [h1 [w1 [a|e]]] eqn:E; cbn [fst snd]; intros H; [|discriminate].
    destruct (k a h1) as [h2 [w2 r]] eqn:E2. cbn [fst snd] in H. injection H as -> <- ->.
    exists h1, w1, w2, a. auto.
  Qed.
  (** the heap after a sequence *)
  Lemma mbind_heap {A B} (m : M C A) (k : A -> M C B) h (P : heap -> Prop) :
    (forall w e, m h = (fst (m h), (w, Err e)) -> P (fst (m h))) ->
    (forall w a, m h = (fst (m h), (w, Ok a)) -> P (fst (k a (fst (m h))))) ->
    P (fst (mbind C m k h)).
  Proof.
    intros H1 H2. unfold mbind. destruct (m h) as [h1 [w1 [a|e]]] eqn:E; cbn [fst snd] in *; eauto.
  Qed.

  Definition silent {A} (m : M C A) : Prop := forall h, fst (m h) = h.
  Lemma silent_ret {A} (a : A) : silent (mret C a).
  Proof. intros h. reflexivity. Qed.
  Lemma silent_lift {A} (r : res A) : silent (mlift C r).
  Proof. intros h. reflexivity. Qed.
  Lemma silent_log {A} (r : lg A) : silent (mlog C r).
  Proof. intros h. reflexivity. Qed.
  Lemma silent_read {A} (f : heap -> res A) : silent (mread C f).
  Proof. intros h. reflexivity. Qed.
  Lemma silent_bind {A B} (m : M C A) (k : A -> M C B) : silent m -> (forall a, silent (k a)) -> silent (mbind C m k).
  Proof.
    intros Hm Hk h. apply mbind_heap; intros; [apply Hm|]. rewrite (Hk a). apply Hm.
  Qed.
  Lemma bind_same {A B} (m : M C A) (k : A -> M C B) h :
    fst (m h) = h -> (forall w a, m h = (h, (w, Ok a)) -> fst (k a h) = h) -> fst (mbind C m k h) = h.
  Proof.
    intros Hm Hk. apply mbind_heap; intros; [exact Hm|]. rewrite Hm in *. eauto.
  Qed.
  Hint Resolve silent_ret silent_lift silent_log silent_read : core.

  Lemma read_ok {A} (f : heap -> res A) h h' w a : mread C f h = (h', (w, Ok a)) -> h' = h /\ w = [] /\ f h = Ok a.
  Proof. unfold mread, lift. intros H. injection H as <- <- ->. auto. Qed.
  Lemma lift_ok {A} (r : res A) h h' w a : mlift C r h = (h', (w, Ok a)) -> h' = h /\ w = [] /\ r = Ok a.
  Proof. unfold mlift, lift. intros H. injection H as <- <- ->. auto. Qed.
  Lemma log_ok {A} (r : lg A) h h' w a : mlog C r h = (h', (w, Ok a)) -> h' = h /\ w = fst r /\ snd r = Ok a.
  Proof. unfold mlog. intros H. injection H as <- H. rewrite H. auto. Qed.
  Lemma ret_ok {A} (x : A) h h' w a : mret C x h = (h', (w, Ok a)) -> h' = h /\ w = [] /\ a = x.
  Proof. unfold mret, lret, lift. intros H. injection H as <- <- <-. auto. Qed.

  Lemma step_ok {A B} (m : M C A) (k : A -> M C B) h h1 a : m h = (h1, lret a) -> mbind C m k h = k a h1.
  Proof. unfold mbind. intros ->. cbn. now destruct (k a h1) as [? [? ?]]. Qed.
  Lemma step_err {A B} (m : M C A) (k : A -> M C B) h h1 e : m h = (h1, ([], Err e)) -> mbind C m k h = (h1, ([], Err e)).
  Proof. unfold mbind. intros ->. reflexivity. Qed.
  Lemma step_read {A B} (f : heap -> res A) (k : A -> M C B) h a : f h = Ok a -> mbind C (mread C f) k h = k a h.
  Proof. intros H. apply step_ok. unfold mread. now rewrite H. Qed.
  Lemma step_lift {A B} (r : res A) (k : A -> M C B) h a : r = Ok a -> mbind C (mlift C r) k h = k a h.
  Proof. intros ->. now apply step_ok. Qed.
  Lemma step_lift_err {A B} (r : res A) (k : A -> M C B) h e : r = Err e -> mbind C (mlift C r) k h = (h, ([], Err e)).
  Proof. intros ->. now apply step_err. Qed.
  Lemma step_ret {A B} (a : A) (k : A -> M C B) h : mbind C (mret C a) k h = k a h.
  Proof. now apply step_ok. Qed.

  (** ** dictionaries *)
  Lemma slookup_app {V} (a b : sdict V) k : slookup (a ++ b)%list k = match slookup a k with Some v => Some v | None => slookup b k end.
  Proof.
    unfold slookup. induction a as [|[x v] a IH]; cbn [app dlookup]; [reflexivity|].
    destruct (String.eqb k x); [reflexivity|apply IH].
  Qed.

  (** ** the dictionary of amplitudes, phases and frequencies *)
  Definition opt_entry (k : string) (z : mdict (list Q)) : sdict dval :=
    match z with [] => [] | _ => [(k, VReal C z)] end.
  Lemma amplm_shape h d r : get_amplm_from_dataDict C cabs h d = Ok r ->
    exists a z, amplm_for C cabs h d "" = Ok a /\ amplm_for C cabs h d "_zeroecc" = Ok z /\
      r = ("amplm", VReal C a) :: opt_entry "amplm_zeroecc" z.
  Proof.
    unfold get_amplm_from_dataDict. intros H. inv_bind H. inv_bind H. apply Ok_inj in H. eauto.
  Qed.
  Lemma phaselm_shape h d r : get_phaselm_from_dataDict C cphase h d = Ok r ->
    exists a z, phaselm_for C cphase h d "" = Ok a /\ phaselm_for C cphase h d "_zeroecc" = Ok z /\
      r = ("phaselm", VReal C a) :: opt_entry "phaselm_zeroecc" z.
  Proof.
    unfold get_phaselm_from_dataDict. intros H. inv_bind H. inv_bind H. apply Ok_inj in H. eauto.
  Qed.

  Lemma apo_shape h d r : get_amp_phase_omega_data C cabs cphase h d = Ok r ->
    exists a az ph pz w z, amplm_for C cabs h d "" = Ok a /\ amplm_for C cabs h d "_zeroecc" = Ok az /\
      phaselm_for C cphase h d "" = Ok ph /\ phaselm_for C cphase h d "_zeroecc" = Ok pz /\
      match slookup d "omegalm" with
      | Some v => w = v
      | None => exists t o, slookup d "t" = Some (VArr C t) /\ get_omegalm_from_phaselm t ph = Ok o /\ w = VReal C o
      end /\
      (z = [] \/ exists v, z = [("omegalm_zeroecc", v)]) /\
      r = ((("amplm", VReal C a) :: opt_entry "amplm_zeroecc" az) ++
           (("phaselm", VReal C ph) :: opt_entry "phaselm_zeroecc" pz) ++ ("omegalm", w) :: z)%list.
  Proof.
    unfold get_amp_phase_omega_data. intros H. inv_bind H. apply amplm_shape in E.
    destruct E as [a [az [E1 [E2 ->]]]]. inv_bind H. apply phaselm_shape in E. destruct E as [ph [pz [E3 [E4 ->]]]].
    inv_bind H. assert (Hph : v = ph).
    { inv_bind E. unfold sget, dget in E0.
      replace (dlookup String.eqb _ _) with (Some (VReal C ph)) in E0; [apply Ok_inj in E0; subst v0; now apply Ok_inj in E|].
      unfold opt_entry. destruct az; reflexivity. }
    subst v. inv_bind H. inv_bind H. apply Ok_inj in H. subst r.
    exists a, az, ph, pz, v, v0. repeat (split; [assumption|]). split; [|split].
    - destruct (slookup d "omegalm") as [x|]; [now apply Ok_inj in E0|].
      inv_bind E0. inv_bind E6. unfold sget, dget in E7. fold (slookup d "t") in E7. destruct (slookup d "t") as [x|]; [|discriminate].
      apply Ok_inj in E7. subst v2. inv_bind E0. apply Ok_inj in E0. destruct x; try discriminate. apply Ok_inj in E6.
      subst a0. exists v1, v2. auto.
    - destruct (slookup d "omegalm_zeroecc"); [apply Ok_inj in E5; eauto|].
      destruct (slookup _ "phaselm_zeroecc"); [|apply Ok_inj in E5; eauto].
      destruct (slookup d "t_zeroecc"); [|apply Ok_inj in E5; eauto].
      inv_bind E5. inv_bind E5. inv_bind E5. apply Ok_inj in E5. eauto.
    - now rewrite <- app_assoc.
  Qed.
  (** the new dictionary *)
  Definition new_dict (t : list Q) (tz : option dval) (a az ph pz : mdict (list Q)) (w : dval) (z : sdict dval) : sdict dval :=
    (("t", VArr C t) :: match tz with Some v => [("t_zeroecc", v)] | None => [] end ++
     ((("amplm", VReal C a) :: opt_entry "amplm_zeroecc" az) ++
      (("phaselm", VReal C ph) :: opt_entry "phaselm_zeroecc" pz) ++ ("omegalm", w) :: z))%list.
  Ltac newd := intros; unfold new_dict, opt_entry;
    repeat match goal with |- context [match ?x with Some _ => _ | None => _ end] => is_var x; destruct x
                         | |- context [match ?x with [] => _ | _ => _ end] => is_var x; destruct x end; reflexivity.
  Lemma new_amplm t tz a az ph pz w z : slookup (new_dict t tz a az ph pz w z) "amplm" = Some (VReal C a).
  Proof. newd. Qed.
  Lemma new_phaselm t tz a az ph pz w z : slookup (new_dict t tz a az ph pz w z) "phaselm" = Some (VReal C ph).
  Proof. newd. Qed.
  Lemma new_omegalm t tz a az ph pz w z : slookup (new_dict t tz a az ph pz w z) "omegalm" = Some w.
  Proof. newd. Qed.
  Lemma new_t t tz a az ph pz w z : slookup (new_dict t tz a az ph pz w z) "t" = Some (VArr C t).
  Proof. newd. Qed.

  (** ** the heap *)
  Definition known (v : dval) (h : heap) : Prop := exists m, real_of C h v = Ok m.
  Lemma cut_real idx d k m h : slookup d k = Some (VReal C m) ->
    cut_entry C idx d k h = (h, lret (sset d k (VReal C (cut_modes idx m)))).
  Proof. intros H. unfold cut_entry, sget, dget. fold (slookup d k). now rewrite H. Qed.
  Lemma cut_ref idx d k q m h : slookup d k = Some (VRef C q) -> nth_error h q = Some (OReal C m) ->
    cut_entry C idx d k h = (set_nth h q (OReal C (cut_modes idx m)), lret d).
  Proof. intros H E. unfold cut_entry, sget, dget. fold (slookup d k). now rewrite H, E. Qed.

  Lemma update_own d e h : update_place C (Own C d) e h = (h, lret (Own C (dupdate String.eqb d e))).
  Proof. reflexivity. Qed.
  Lemma transform_own_silent level d tag :
    silent (transform_inertial_to_coprecessing C cabs cphase cpolar rotate level (Own C d) tag).
  Proof.
    unfold transform_inertial_to_coprecessing. apply silent_bind; [auto|]. intros d0. apply silent_bind.
    - destruct (smem d0 _); [auto|]. apply silent_bind; [auto|]. intros hlm h. 
      apply bind_same; [reflexivity|]. intros w a H. injection H as <- <-.
      revert h. change (silent (mbind C (mread C (fun h => top_of C h (Own C (dupdate String.eqb d hlm)))) (fun d2 =>
        mbind C (mread C (fun h => get_coprecessing_data_dict C rotate h d2 tag)) (fun d3 =>
        mbind C (mlog C (dbg "removing inertial frame amplm and phaselm" level false)) (fun _ =>
        mret C (spop (spop d3 ("amplm" ++ tag)) ("phaselm" ++ tag))))))).
      repeat (apply silent_bind; [auto|intros]); auto.
    - intros d1. destruct (smem d1 _); [|auto]. apply silent_bind; [auto|intros; auto].
  Qed.
  Lemma transform_hlm_same level pl tag h d : top_of C h pl = Ok d -> smem d ("hlm" ++ tag) = true ->
    fst (transform_inertial_to_coprecessing C cabs cphase cpolar rotate level pl tag h) = h.
  Proof.
    intros Hd Hm. unfold transform_inertial_to_coprecessing. apply bind_same; [reflexivity|].
    intros w a H. apply read_ok in H. destruct H as [_ [_ H]]. assert (a = d) by congruence. subst a. rewrite Hm.
    apply bind_same; [reflexivity|]. intros w1 d1 _.
    destruct (smem d1 _); [|reflexivity]. apply bind_same; [reflexivity|]. intros; reflexivity.
  Qed.

  Notation process := (process_data_dict C cabs cphase cpolar rotate qsqrt).
  Notation readw := (read_waveform C cabs cphase cpolar rotate qsqrt).
  Notation trans := (transform_inertial_to_coprecessing C cabs cphase cpolar rotate).

  (** the dictionary from which amplitude, phase and frequency are taken *)
  Definition chosen (level : Z) (precessing : bool) (frame : string) (p : nat) (d0 : sdict dval) : M C (sdict dval) :=
    if precessing && String.eqb frame "inertial" then
      mbind C (mlog C (dbg "transforming to the coprecessing frame" level false)) (fun _ =>
      mbind C (trans level (Caller C p) "") (fun d1 =>
      if smem d1 "hlm_zeroecc" || smem d1 "amplm_zeroecc" then trans level (Own C d1) "_zeroecc" else mret C d1))
    else mret C d0.
  (** the numbers computed from the new dictionary *)
  Definition merger_data (precessing : bool) (t : list Q) (nd : sdict dval) (h : heap) : res (full C) :=
    do amplm <- modes_at C h nd "amplm";
    do amp <- amplitude_using_all_modes C cabs qsqrt "amplm" (real_modes C amplm);
    do tm <- peak_time_via_quadratic_fit t amp;
    let t_merger := fst tm in
    do mi <- argmin (map (fun x => Qabs (x - t_merger)) t);
    do gw <- get_amp_phase_omega_gw C h precessing nd "";
    let '(amp_gw, phase_gw, omega_gw) := gw in
    do am <- get amp_gw mi;
    do pm <- get phase_gw mi;
    do om <- get omega_gw mi;
    do p0 <- get phase_gw 0;
    if Qlt_bool pm p0 then Err GenericException
    else if Qlt_bool om 0 then Err GenericException
    else
      do width <- width_from_phase t phase_gw pm;
      Ok {| f_dict := nd; f_t := t; f_t_merger := t_merger; f_amp_merger := am; f_width := width; f_phase := phase_gw;
            f_phase_merger := pm |}.
  Definition rest (precessing : bool) (d : sdict dval) : M C (full C) :=
    mbind C (mlift C (match slookup d "t" with Some v => arr_of C v | None => Err GenericException end)) (fun t =>
    mbind C (mread C (fun h => get_amp_phase_omega_data C cabs cphase h d)) (fun apo =>
    mread C (merger_data precessing t
      (("t", VArr C t) :: match slookup d "t_zeroecc" with Some v => [("t_zeroecc", v)] | None => [] end ++ apo)%list))).
  Lemma readw_eq level precessing frame p h :
    readw level precessing frame p h =
    mbind C (mread C (fun h => top_of C h (Caller C p))) (fun d0 =>
    mbind C (mlift C (check_representation C d0)) (fun _ =>
    mbind C (chosen level precessing frame p d0) (rest precessing))) h.
  Proof. reflexivity. Qed.

  Lemma rest_silent precessing d : silent (rest precessing d).
  Proof. unfold rest. apply silent_bind; [auto|intros]. apply silent_bind; [auto|intros]. auto. Qed.

  (** successful reading *)
  Lemma rest_ok precessing d h h' w f : rest precessing d h = (h', (w, Ok f)) ->
    h' = h /\ w = [] /\
    exists t tz a az ph pz om z, slookup d "t" = Some (VArr C t) /\ tz = slookup d "t_zeroecc" /\
      amplm_for C cabs h d "" = Ok a /\ phaselm_for C cphase h d "" = Ok ph /\
      match slookup d "omegalm" with
      | Some v => om = v
      | None => exists o, get_omegalm_from_phaselm t ph = Ok o /\ om = VReal C o
      end /\
      f_dict C f = new_dict t tz a az ph pz om z /\ f_t C f = t /\
      merger_data precessing t (new_dict t tz a az ph pz om z) h = Ok f.
  Proof.
    unfold rest. intros H. apply mbind_ok in H. destruct H as [h1 [w1 [w2 [t [E [H ->]]]]]].
    apply lift_ok in E. destruct E as [-> [-> E]]. apply mbind_ok in H. destruct H as [h2 [w3 [w4 [apo [E2 [H ->]]]]]].
    apply read_ok in E2. destruct E2 as [-> [-> E2]]. apply read_ok in H. destruct H as [-> [-> H]].
    split; [reflexivity|]. split; [reflexivity|].
    apply apo_shape in E2. destruct E2 as [a [az [ph [pz [om [z [A1 [A2 [A3 [A4 [A5 [A6 ->]]]]]]]]]]]].
    destruct (slookup d "t") as [v|] eqn:Et; [|discriminate]. destruct v; try discriminate. apply Ok_inj in E. subst a0.
    exists t, (slookup d "t_zeroecc"), a, az, ph, pz, om, z. repeat (split; [auto; fail|]).
    split. { destruct (slookup d "omegalm"); [exact A5|]. destruct A5 as [t' [o [B1 B2]]]. injection B1 as <-. eauto. }
    assert (X : f_dict C f = new_dict t (slookup d "t_zeroecc") a az ph pz om z /\ f_t C f = t); [|split; [apply X|split; [apply X|exact H]]].
    revert H. unfold merger_data. intros H. inv_bind H. inv_bind H. inv_bind H. cbv zeta in H. inv_bind H. inv_bind H.
    destruct v3 as [[? ?] ?]. inv_bind H. inv_bind H. inv_bind H. inv_bind H.
    destruct (Qlt_bool _ _); [discriminate|]. destruct (Qlt_bool _ _); [discriminate|]. inv_bind H. apply Ok_inj in H.
    subst f. split; reflexivity.
  Qed.

  Lemma check_ok d : check_representation C d = Ok tt <-> one_representation d.
  Proof.
    unfold check_representation, one_representation, has. change (map fst d) with (dkeys d). rewrite <- !smem_in.
    destruct (smem d "hlm"), (smem d "amplm"), (smem d "phaselm"), (smem d "hlm_zeroecc"), (smem d "amplm_zeroecc"), (smem d "phaselm_zeroecc");
      cbn; split; intros; try congruence; intuition congruence.
  Qed.
  Lemma check_err d : ~ one_representation d -> check_representation C d = Err GenericException.
  Proof.
    intros H. rewrite <- check_ok in H. unfold check_representation in *.
    repeat match goal with |- context [if ?b then _ else _] => destruct b end; congruence.
  Qed.
  Lemma readw_start level precessing frame p h d0 : is_dict h p d0 ->
    (~ one_representation d0 -> readw level precessing frame p h = (h, ([], Err GenericException))) /\
    (one_representation d0 ->
     readw level precessing frame p h = mbind C (chosen level precessing frame p d0) (rest precessing) h).
  Proof.
    unfold is_dict. intros Hd. rewrite readw_eq. rewrite (step_read _ _ _ d0) by (cbn [top_of]; now rewrite Hd).
    split; intros H.
    - apply step_lift_err. now apply check_err.
    - rewrite (step_lift _ _ _ tt) by now apply check_ok. reflexivity.
  Qed.

  (** keys are never lost on the way to [t] *)
  Lemma has_mem {V} (d : sdict V) k : has d k <-> smem d k = true.
  Proof. unfold has. change (map fst d) with (dkeys d). symmetry. apply smem_in. Qed.
  Lemma has_lookup {V} (d : sdict V) k v : slookup d k = Some v -> has d k.
  Proof. intros H. apply slookup_in in H. unfold has. apply in_map_iff. exists (k, v). auto. Qed.
  Lemma lookup_has {V} (d : sdict V) k : has d k -> exists v, slookup d k = Some v.
  Proof.
    intros H. destruct (slookup d k) eqn:E; [eauto|]. apply slookup_none in E. elim E. exact H.
  Qed.
  Lemma deepcopy_keys h d : map fst (deepcopy C h d) = map fst d.
  Proof. unfold deepcopy. rewrite map_map. reflexivity. Qed.
  Lemma slookup_spop {V} (d : sdict V) k k' : k' <> k -> slookup (spop d k) k' = slookup d k'.
  Proof.
    unfold slookup, spop. intros Hk. induction d as [|[x v] d IH]; [reflexivity|]. cbn [dpop dlookup].
    destruct (String.eqb k x) eqn:E; cbn [dlookup].
    - apply String.eqb_eq in E. subst x. apply String.eqb_neq in Hk. now rewrite Hk.
    - destruct (String.eqb k' x); [reflexivity|exact IH].
  Qed.
  Lemma slookup_deepcopy h d k : slookup (deepcopy C h d) k = option_map (deep_val C h) (slookup d k).
  Proof.
    unfold slookup, deepcopy. induction d as [|[x v] d IH]; [reflexivity|]. cbn [map dlookup fst snd].
    destruct (String.eqb k x); [reflexivity|exact IH].
  Qed.
  Lemma copre_ok h d tag r : get_coprecessing_data_dict C rotate h d tag = Ok r ->
    exists m, r = sset (deepcopy C h d) ("hlm" ++ tag) (VCplx C m) /\ has d ("t" ++ tag) /\ has d ("hlm" ++ tag).
  Proof.
    unfold get_coprecessing_data_dict. intros H. inv_bind H. inv_bind H. inv_bind H. inv_bind H. apply Ok_inj in H. subst r.
    exists (combine ell2 v2). split; [reflexivity|]. unfold sget, dget in *. split.
    - inv_bind E1. fold (slookup d ("t" ++ tag)) in E3. destruct (slookup d ("t" ++ tag)) eqn:Et; [|discriminate].
      eapply has_lookup; eauto.
    - inv_bind E. fold (slookup d ("hlm" ++ tag)) in E3. destruct (slookup d ("hlm" ++ tag)) eqn:Et; [|discriminate].
      eapply has_lookup; eauto.
  Qed.

  (** ** C03 *)
  Lemma process_reads level precessing frame num p h :
    process level precessing frame num p h =
    mbind C (readw level precessing frame p) (fun f => mbind C (truncate C num f) (fun d =>
      mret C {| p_dict := d; p_t_merger := f_t_merger C f; p_amp_merger := f_amp_merger C f; p_width := f_width C f |})) h.
  Proof. reflexivity. Qed.
  Lemma rejected level precessing frame num p h d : is_dict h p d -> ~ one_representation d ->
    process level precessing frame num p h = (h, ([], Err GenericException)).
  Proof.
    intros Hd Ho. rewrite process_reads. apply step_err. now apply (readw_start level precessing frame p h d Hd).
  Qed.
  Lemma top_ok h p d : top_of C h (Caller C p) = Ok d -> is_dict h p d.
  Proof. unfold is_dict. cbn. destruct (nth_error h p) as [[]|]; try discriminate. intros H. apply Ok_inj in H. now subst. Qed.
  Lemma process_needs_dict level precessing frame num p h h' w r : process level precessing frame num p h = (h', (w, Ok r)) ->
    exists d, is_dict h p d /\ one_representation d.
  Proof.
    rewrite process_reads. intros H. apply mbind_ok in H. destruct H as [h1 [w1 [w2 [f [E _]]]]].
    rewrite readw_eq in E. apply mbind_ok in E. destruct E as [h2 [w3 [w4 [d [E [E2 _]]]]]].
    apply read_ok in E. destruct E as [-> [-> E]]. apply top_ok in E.
    exists d. split; [exact E|]. apply mbind_ok in E2. destruct E2 as [h3 [w5 [w6 [[] [E3 _]]]]].
    apply lift_ok in E3. apply check_ok. apply E3.
  Qed.
  (** an update or a removal of other keys does not touch t *)
  Lemma dupdate_t (e : sdict dval) : forall d : sdict dval, ~ has e "t" -> slookup (dupdate String.eqb d e) "t" = slookup d "t".
  Proof.
    induction e as [|[k v] e IH]; intros d Hn; [reflexivity|]. cbn [dupdate]. rewrite IH by (intros X; apply Hn; right; exact X).
    change (dset String.eqb d k v) with (sset d k v). rewrite slookup_sset.
    destruct (String.eqb "t" k) eqn:E; [|reflexivity]. apply String.eqb_eq in E. subst k. elim Hn. left. reflexivity.
  Qed.
  Lemma nth_set {A} (l : list A) : forall i x j, nth_error (set_nth l i x) j =
    if (i =? j) && (i <? length l) then Some x else nth_error l j.
  Proof.
    induction l as [|y l IH]; intros i x j; [destruct i; rewrite andb_false_r; reflexivity|].
    destruct i as [|i], j as [|j]; cbn [set_nth nth_error length Nat.eqb]; try reflexivity.
    rewrite IH. reflexivity.
  Qed.
  Lemma update_ok pl e h d : top_of C h pl = Ok d ->
    exists h' pl', update_place C pl e h = (h', lret pl') /\ top_of C h' pl' = Ok (dupdate String.eqb d e) /\
      match pl with
      | Caller _ q => h' = set_nth h q (OTop C (dupdate String.eqb d e))
      | Own _ _ => h' = h
      end.
  Proof.
    destruct pl as [q|d']; cbn [top_of update_place].
    - destruct (nth_error h q) as [[]|] eqn:E; try discriminate. intros H. apply Ok_inj in H. subst d0.
      eexists _, _. split; [reflexivity|]. split; [|reflexivity]. cbn [top_of]. rewrite nth_set, Nat.eqb_refl.
      assert (q < length h) by (apply nth_error_Some; congruence). now rewrite (proj2 (Nat.ltb_lt _ _)).
    - intros H. apply Ok_inj in H. subst d'. eexists _, _. split; [reflexivity|]. split; reflexivity.
  Qed.
  Lemma hlm_keys h a ph e : get_hlm_from_amplm_phaselm C cpolar h a ph = Ok e ->
    map fst e = if smem a "amplm_zeroecc" then ["hlm"; "hlm_zeroecc"] else ["hlm"].
  Proof.
    unfold get_hlm_from_amplm_phaselm. intros E.
    assert (G : forall tg kv, (do av <- sget a ("amplm" ++ tg); do am <- real_of C h av;
               match am with [] => Ok (("hlm" ++ tg)%string, VCplx C [])
               | _ => do pv <- sget ph ("phaselm" ++ tg); do pm <- real_of C h pv;
                      do m <- polar_modes C cpolar am pm; Ok (("hlm" ++ tg)%string, VCplx C m) end) = Ok kv -> fst kv = ("hlm" ++ tg)%string).
    { intros tg kv X. inv_bind X. inv_bind X. destruct v0; [apply Ok_inj in X; now subst kv|].
      inv_bind X. inv_bind X. inv_bind X. apply Ok_inj in X. now subst kv. }
    inv_bind E. apply G in E0. destruct (smem a "amplm_zeroecc").
    - inv_bind E. apply G in E1. apply Ok_inj in E. subst e. cbn [map]. rewrite E0, E1. reflexivity.
    - apply Ok_inj in E. subst e. cbn [map]. now rewrite E0.
  Qed.
  Lemma trans_ok level pl tag h h' w d r : top_of C h pl = Ok d ->
    trans level pl tag h = (h', (w, Ok r)) ->
    exists m d2, (h' = h /\ has d ("hlm" ++ tag) /\ d2 = d /\
                  (r = sset (deepcopy C h d2) ("hlm" ++ tag) (VCplx C m) \/
                   r = spop (sset (deepcopy C h d2) ("hlm" ++ tag) (VCplx C m)) ("omegalm" ++ tag)) \/
                 ~ has d ("hlm" ++ tag) /\
                 (exists e, d2 = dupdate String.eqb d e /\ (map fst e = ["hlm"] \/ map fst e = ["hlm"; "hlm_zeroecc"])) /\
                 match pl with
                 | Caller _ q => h' = set_nth h q (OTop C d2)
                 | Own _ _ => h' = h
                 end /\
                 exists r1, r1 = spop (spop (sset (deepcopy C h' d2) ("hlm" ++ tag) (VCplx C m)) ("amplm" ++ tag)) ("phaselm" ++ tag) /\
                 (r = r1 \/ r = spop r1 ("omegalm" ++ tag))) /\
                has d2 ("t" ++ tag) /\ has d2 ("hlm" ++ tag).
  Proof.
    intros Hd H. unfold transform_inertial_to_coprecessing in H. rewrite (step_read _ _ _ d) in H by exact Hd.
    apply mbind_ok in H. destruct H as [h1 [w1 [w2 [d1 [E [H ->]]]]]].
    assert (R : h' = h1 /\ (r = d1 \/ r = spop d1 ("omegalm" ++ tag))).
    { destruct (smem d1 _).
      - apply mbind_ok in H. destruct H as [h2 [w3 [w4 [u [X [H _]]]]]]. apply log_ok in X. destruct X as [-> _].
        apply ret_ok in H. destruct H as [-> [_ ->]]. auto.
      - apply ret_ok in H. destruct H as [-> [_ ->]]. auto. }
    destruct R as [-> R]. clear H.
    destruct (smem d ("hlm" ++ tag)) eqn:Em.
    - apply read_ok in E. destruct E as [-> [_ E]]. apply copre_ok in E. destruct E as [m [-> [E2 E3]]].
      exists m, d. split; [|split; assumption]. left. auto.
    - apply mbind_ok in E. destruct E as [h2 [w3 [w4 [hlm [E [H _]]]]]]. apply read_ok in E. destruct E as [-> [_ E]].
      destruct (update_ok pl hlm h d Hd) as [h3 [pl3 [U1 [U2 U3]]]].
      rewrite (step_ok _ _ _ _ _ U1) in H. rewrite (step_read _ _ _ _ U2) in H.
      apply mbind_ok in H. destruct H as [h5 [w9 [w10 [d3 [E4 [H _]]]]]].
      apply read_ok in E4. destruct E4 as [-> [-> E4]].
      apply mbind_ok in H. destruct H as [h6 [w11 [w12 [u [X [H _]]]]]]. apply log_ok in X. destruct X as [-> _].
      apply ret_ok in H. destruct H as [-> [_ ->]]. apply copre_ok in E4. destruct E4 as [m [-> [E5 E6]]].
      exists m, (dupdate String.eqb d hlm). split; [|split; assumption]. right.
      split. { rewrite has_mem. congruence. }
      split. { exists hlm. split; [reflexivity|]. inv_bind E. inv_bind E. apply hlm_keys in E. destruct (smem v _); auto. }
      split; [exact U3|]. eauto.
  Qed.
  Lemma trans_t level pl tag h h' w d r : top_of C h pl = Ok d -> tag = "" \/ tag = "_zeroecc" ->
    trans level pl tag h = (h', (w, Ok r)) -> (slookup d "t" <> None <-> slookup r "t" <> None) /\ (tag = "" -> has d "t").
  Proof.
    intros Hd Ht H. eapply trans_ok in H; [|exact Hd]. destruct H as [m [d2 [H [H2 _]]]].
    assert (D : slookup d2 "t" = slookup d "t").
    { destruct H as [[_ [_ [-> _]]]|[_ [[e [-> K]] _]]]; [reflexivity|]. apply dupdate_t. unfold has.
      destruct K as [-> | ->]; cbn; intuition discriminate. }
    assert (G : forall h0, slookup (sset (deepcopy C h0 d2) ("hlm" ++ tag) (VCplx C m)) "t" = option_map (deep_val C h0) (slookup d2 "t")).
    { intros h0. rewrite slookup_sset. replace (String.eqb "t" ("hlm" ++ tag)) with false by (destruct Ht as [-> | ->]; reflexivity).
      apply slookup_deepcopy. }
    assert (P : forall (x : sdict dval) k, k = "amplm" ++ tag \/ k = "phaselm" ++ tag \/ k = "omegalm" ++ tag -> slookup (spop x k) "t" = slookup x "t").
    { intros x k Hk. apply slookup_spop. destruct Ht as [-> | ->]; intuition (subst; discriminate). }
    split.
    - rewrite <- D.
      destruct H as [[_ [_ [_ [-> | ->]]]]|[_ [_ [_ [r1 [-> [-> | ->]]]]]]]; rewrite ?P by auto; rewrite G; destruct (slookup d2 "t"); cbn; split; congruence.
    - intros ->. cbn [append] in H2. apply lookup_has in H2. destruct H2 as [v Hv]. rewrite D in Hv. eapply has_lookup; eauto.
  Qed.
  Lemma process_needs_t level precessing frame num p h h' w r d : process level precessing frame num p h = (h', (w, Ok r)) ->
    is_dict h p d -> has d "t".
  Proof.
    intros H Hd. destruct (process_needs_dict _ _ _ _ _ _ _ _ _ H) as [d' [Hd' Ho]].
    unfold is_dict in *. assert (d' = d) by congruence. subst d'. clear Hd'.
    rewrite process_reads in H. apply mbind_ok in H. destruct H as [h1 [w1 [w2 [f [E _]]]]].
    rewrite (proj2 (readw_start level precessing frame p h d Hd) Ho) in E.
    apply mbind_ok in E. destruct E as [h2 [w3 [w4 [d1 [E [E2 _]]]]]].
    apply rest_ok in E2. destruct E2 as [_ [_ [t [_ [_ [_ [_ [_ [_ [_ [E2 _]]]]]]]]]]].
    unfold chosen in E. destruct (precessing && _).
    - apply mbind_ok in E. destruct E as [h3 [w5 [w6 [u [X [E _]]]]]]. apply log_ok in X. destruct X as [-> _].
      apply mbind_ok in E. destruct E as [h4 [w7 [w8 [d2 [E [_ _]]]]]].
      eapply (trans_t level (Caller C p) "" h h4 w7 d d2); [cbn [top_of]; now rewrite Hd|auto|exact E|reflexivity].
    - apply ret_ok in E. destruct E as [_ [_ ->]]. eapply has_lookup; eauto.
  Qed.
  Lemma no_time level precessing frame num p h d : is_dict h p d -> ~ has d "t" ->
    exists e, snd (snd (process level precessing frame num p h)) = Err e.
  Proof.
    intros Hd Ht. destruct (process level precessing frame num p h) as [h' [w [r|e]]] eqn:E; cbn; [|eauto].
    elim Ht. eapply process_needs_t; eauto.
  Qed.
  Lemma no_time_plain level precessing frame num p h d : is_dict h p d -> ~ has d "t" -> precessing = false \/ frame <> "inertial" ->
    process level precessing frame num p h = (h, ([], Err GenericException)).
  Proof.
    intros Hd Ht Hp. destruct (check_representation C d) as [[]|e] eqn:Ec.
    2:{ apply rejected with d; [exact Hd|]. rewrite <- check_ok. congruence. }
    apply check_ok in Ec. rewrite process_reads. apply step_err.
    rewrite (proj2 (readw_start level precessing frame p h d Hd) Ec). unfold chosen.
    replace (precessing && String.eqb frame "inertial") with false.
    2:{ destruct Hp as [-> | Hp]; [reflexivity|]. apply String.eqb_neq in Hp. rewrite Hp. now rewrite andb_false_r. }
    rewrite step_ret. unfold rest. destruct (slookup d "t") eqn:E; [elim Ht; eapply has_lookup; eauto|].
    now apply step_lift_err.
  Qed.

  (** ** C31 *)
  Lemma set_same {A} (l : list A) : forall i x, nth_error l i = Some x -> set_nth l i x = l.
  Proof. induction l as [|y l IH]; intros [|i] x H; cbn in *; try congruence. f_equal. auto. Qed.
  Lemma readw_same level precessing frame p h d : is_dict h p d ->
    (precessing = true -> frame = "inertial" -> has d "hlm") ->
    fst (readw level precessing frame p h) = h.
  Proof.
    intros Hd Hh. destruct (check_representation C d) as [[]|e] eqn:Ec.
    2:{ rewrite (proj1 (readw_start level precessing frame p h d Hd)); [reflexivity|]. rewrite <- check_ok. congruence. }
    apply check_ok in Ec. rewrite (proj2 (readw_start level precessing frame p h d Hd) Ec).
    apply bind_same; [|intros; apply rest_silent]. unfold chosen.
    destruct (precessing && String.eqb frame "inertial") eqn:Ep; [|reflexivity].
    apply andb_true_iff in Ep. destruct Ep as [-> Ep]. apply String.eqb_eq in Ep. specialize (Hh eq_refl Ep).
    apply bind_same; [reflexivity|]. intros w u _.
    assert (X : fst (trans level (Caller C p) "" h) = h).
    { apply transform_hlm_same with d; [cbn; now rewrite Hd|]. now apply has_mem. }
    apply bind_same; [exact X|]. intros w1 d1 _. destruct (_ || _); [apply transform_own_silent|reflexivity].
  Qed.

  (** a successful reading, with the caller's objects left alone *)
  Lemma readw_ok level precessing frame p h h1 w f : readw level precessing frame p h = (h1, (w, Ok f)) ->
    exists d0 d t tz a az ph pz om z, is_dict h p d0 /\ one_representation d0 /\
      (exists w1 w2, chosen level precessing frame p d0 h = (h1, (w1, Ok d)) /\ rest precessing d h1 = (h1, (w2, Ok f))) /\
      slookup d "t" = Some (VArr C t) /\
      amplm_for C cabs h1 d "" = Ok a /\ phaselm_for C cphase h1 d "" = Ok ph /\
      match slookup d "omegalm" with
      | Some v => om = v
      | None => exists o, get_omegalm_from_phaselm t ph = Ok o /\ om = VReal C o
      end /\
      f_dict C f = new_dict t tz a az ph pz om z /\ f_t C f = t /\
      merger_data precessing t (new_dict t tz a az ph pz om z) h1 = Ok f.
  Proof.
    intros H. pose proof H as H0. rewrite readw_eq in H. apply mbind_ok in H. destruct H as [h2 [w3 [w4 [d0 [E [E2 _]]]]]].
    apply read_ok in E. destruct E as [-> [-> E]]. apply top_ok in E.
    apply mbind_ok in E2. destruct E2 as [h3 [w5 [w6 [[] [E3 [E4 _]]]]]].
    apply lift_ok in E3. destruct E3 as [-> [-> E3]]. apply check_ok in E3.
    apply mbind_ok in E4. destruct E4 as [h4 [w7 [w8 [d [E4 [E5 _]]]]]]. pose proof E5 as E6.
    apply rest_ok in E6. destruct E6 as [-> [-> [t [tz [a [az [ph [pz [om [z [F1 [F2 [F3 [F4 [F5 [F6 [F7 F8]]]]]]]]]]]]]]]]].
    exists d0, d, t, tz, a, az, ph, pz, om, z. repeat (split; [assumption|]). split; [eauto|].
    repeat (split; [assumption|]). assumption.
  Qed.
  (** omega comes from a private dictionary unless the caller gave omegalm in a frame that is kept *)
  Lemma chosen_plain level precessing frame p d0 h : precessing = false \/ frame <> "inertial" ->
    chosen level precessing frame p d0 h = (h, lret d0).
  Proof.
    intros Hp. unfold chosen. replace (precessing && String.eqb frame "inertial") with false; [reflexivity|].
    destruct Hp as [-> | Hp]; [reflexivity|]. apply String.eqb_neq in Hp. rewrite Hp. now rewrite andb_false_r.
  Qed.
  Definition private (v : dval) : Prop := match v with VRef _ _ => False | _ => True end.
  Lemma truncate_same num f h t tz a az ph pz om z : f_dict C f = new_dict t tz a az ph pz om z ->
    num = None \/ private om -> fst (truncate C num f h) = h.
  Proof.
    intros Hf Hn. unfold truncate. destruct num as [n|]; [|reflexivity]. destruct Hn as [Hn|Hn]; [discriminate|].
    destruct (Qlt_bool n 0); [reflexivity|]. rewrite Hf. apply bind_same; [reflexivity|]. intros w idx _.
    rewrite (step_ok _ _ _ _ _ (cut_real idx _ "amplm" _ h (new_amplm t tz a az ph pz om z))).
    erewrite (step_ok (cut_entry C idx _ "phaselm")); [|apply cut_real; rewrite slookup_sset; apply new_phaselm].
    apply bind_same; [|intros; reflexivity].
    unfold cut_entry, sget, dget.
    match goal with |- context [dlookup String.eqb ?d "omegalm"] => replace (dlookup String.eqb d "omegalm") with (Some om) end.
    2:{ symmetry. match goal with |- dlookup _ ?d ?k = _ => change (slookup d k = Some om) end. rewrite !slookup_sset. apply new_omegalm. }
    destruct om; try reflexivity. elim Hn.
  Qed.
  Definition all_private (d : sdict dval) : Prop := Forall (fun kv => private (snd kv)) d.
  Lemma private_lookup d k v : all_private d -> slookup d k = Some v -> private v.
  Proof. intros H E. apply slookup_in in E. eapply Forall_forall in H; [|exact E]. exact H. Qed.
  Lemma private_copy h d : all_private (deepcopy C h d).
  Proof.
    unfold all_private, deepcopy. apply Forall_forall. intros kv H. apply in_map_iff in H. destruct H as [[k v] [<- _]]. cbn.
    destruct v; cbn; auto. destruct (nth_error h p) as [[]|]; cbn; auto.
  Qed.
  Lemma private_pop d k : all_private d -> all_private (spop d k).
  Proof.
    unfold all_private, spop. induction 1 as [|[x v] d H1 H2 IH]; cbn [dpop]; [constructor|]. destruct (String.eqb k x); [exact H2|].
    constructor; auto.
  Qed.
  Lemma private_set d k v : private v -> all_private d -> all_private (sset d k v).
  Proof.
    unfold all_private, sset. intros Hv. induction 1 as [|[x u] d H1 H2 IH]; cbn [dset]; [constructor; auto|].
    destruct (String.eqb k x); constructor; auto.
  Qed.
  Lemma trans_private level pl tag h h' w d r : top_of C h pl = Ok d -> trans level pl tag h = (h', (w, Ok r)) -> all_private r.
  Proof.
    intros Hd H. eapply trans_ok in H; [|exact Hd]. destruct H as [m [d2 [H _]]].
    destruct H as [[_ [_ [_ [-> | ->]]]]|[_ [_ [_ [r1 [-> [-> | ->]]]]]]];
      repeat (apply private_pop || (apply private_set; [exact I|])); apply private_copy.
  Qed.
  Lemma chosen_private level frame p d0 h h1 w d : is_dict h p d0 -> frame = "inertial" ->
    chosen level true frame p d0 h = (h1, (w, Ok d)) -> all_private d.
  Proof.
    intros Hd -> H. unfold chosen in H. cbn [andb] in H. rewrite String.eqb_refl in H.
    apply mbind_ok in H. destruct H as [h2 [w1 [w2 [u [E [H _]]]]]]. apply log_ok in E. destruct E as [-> _].
    apply mbind_ok in H. destruct H as [h3 [w3 [w4 [d1 [E [H _]]]]]].
    destruct (_ || _).
    - eapply trans_private; [|exact H]. reflexivity.
    - apply ret_ok in H. destruct H as [_ [_ ->]]. eapply trans_private; [|exact E]. cbn [top_of]. now rewrite Hd.
  Qed.

  Lemma process_same level precessing frame num p h d : is_dict h p d ->
    (precessing = true -> frame = "inertial" -> has d "hlm") ->
    num = None \/ ~ has d "omegalm" \/ (precessing = true /\ frame = "inertial") ->
    fst (process level precessing frame num p h) = h.
  Proof.
    intros Hd H1 H2. rewrite process_reads. pose proof (readw_same level precessing frame p h d Hd H1) as R.
    apply bind_same; [exact R|]. intros w f E. apply bind_same; [|intros; reflexivity].
    apply readw_ok in E. destruct E as [d0 [d' [t [tz [a [az [ph [pz [om [z [E0 [_ [[w1 [w2 [E1 _]]] [_ [_ [_ [E2 [E3 [E4 _]]]]]]]]]]]]]]]]]]].
    assert (d0 = d) by (unfold is_dict in *; congruence). subst d0.
    eapply truncate_same; [exact E3|]. destruct H2 as [H2|[H2|[-> H2]]]; [auto| |].
    - destruct precessing.
      + destruct (String.eqb frame "inertial") eqn:Ef.
        * right. apply String.eqb_eq in Ef. pose proof (chosen_private _ _ _ _ _ _ _ _ Hd Ef E1) as P.
          destruct (slookup d' "omegalm") eqn:Eo; [subst om; eapply private_lookup; eauto|]. destruct E2 as [o [_ ->]]. exact I.
        * apply String.eqb_neq in Ef. rewrite chosen_plain in E1 by auto. injection E1 as <- <-.
          destruct (slookup d "omegalm") eqn:Eo; [elim H2; eapply has_lookup; eauto|]. destruct E2 as [o [_ ->]]. right. exact I.
      + rewrite chosen_plain in E1 by auto. injection E1 as <- <-.
        destruct (slookup d "omegalm") eqn:Eo; [elim H2; eapply has_lookup; eauto|]. destruct E2 as [o [_ ->]]. right. exact I.
    - right. pose proof (chosen_private _ _ _ _ _ _ _ _ Hd H2 E1) as P.
      destruct (slookup d' "omegalm") eqn:Eo; [subst om; eapply private_lookup; eauto|]. destruct E2 as [o [_ ->]]. exact I.
  Qed.
End S.
