(** What each option of extra_kwargs does to the measuring object, and the documented defaults. *)
From Verif Require Import Base BaseLemmas UtilsModel UtilsSpec UtilsLemmas ExtremaModel RationalModel MeasureModel MeasureSpec LevelLemmas
  SegmentModel SegmentSpec SegmentLemmas DataModel DataSpec DataLemmas DataLemmas2 InitModel InitSpec InitLemmas InitOptions InitSame OptionSpec.
Open Scope string_scope.
Open Scope nat_scope.

Lemma set_fill e k v : set_to e k v -> slookup (fill_defaults e default_extra) k = Some v.
Proof.
  rewrite fill_lookup. intros [->|[-> H]]; [reflexivity|]. cbn in H.
  repeat (destruct H as [H|H]; [injection H as <- <-; reflexivity|]). contradiction.
Qed.
Lemma with_subdict e k u (v : pyval) x : with_options e k u -> slookup (fill_defaults e default_extra) k = Some v -> subdict v = Ok x ->
  match x with None => [] | Some d => d end = u.
Proof.
  intros [H|[H ->]] E S; apply set_fill in H; rewrite H in E; apply Some_inj in E; subst v; cbn in S; apply Ok_inj in S; now subst.
Qed.
Lemma complete_ok {V} (u : option (sdict V)) D r : check_kwargs_and_set_defaults u D = Ok r ->
  forall k, slookup r k = match slookup match u with None => [] | Some d => d end k with Some v => Some v | None => slookup D k end.
Proof. intros H k. apply kwargs_ok in H. destruct H as [_ ->]. apply fill_lookup. Qed.
Lemma spline_entries u d sp : (forall k, slookup d k = match slookup u k with Some v => Some v | None => slookup default_spline k end) ->
  spline_of d = Ok sp -> is_degree (or_default u "k" (LNum 3)) (sp_k sp) /\ exists q, or_default u "ext" (LNum 2) = LNum q /\ sp_ext sp = Qfloor q.
Proof.
  intros F H. unfold spline_of in H. rewrite !sget_lookup, !F in H. unfold is_degree, or_default.
  destruct (slookup u "k") as [a|], (slookup u "ext") as [b|]; cbn [bind slookup dlookup default_spline String.eqb Ascii.eqb Bool.eqb] in H;
    try (destruct a; try discriminate); try (destruct b; try discriminate); cbn in H; apply Ok_inj in H; subst sp; eauto 6.
Qed.
Lemma degrees_entries u d r : (forall k, slookup d k = match slookup u k with Some v => Some v | None => slookup default_rational k end) ->
  degrees_of d = Ok r -> or_default u "degrees" LNone = match r with None => LNone | Some (a, b) => LPair a b end.
Proof.
  intros F H. unfold degrees_of in H. rewrite sget_lookup, F in H. unfold or_default.
  destruct (slookup u "degrees") as [a|]; cbn in H; [|apply Ok_inj in H; now subst].
  destruct a; try discriminate; apply Ok_inj in H; now subst.
Qed.
(** The options read from a completed dictionary. *)
Lemma options_ok ek width op : read_options ek width = Ok op ->
  (exists v x, slookup ek "extrema_finding_kwargs" = Some v /\ subdict v = Ok x /\
     check_kwargs_and_set_defaults x (default_extrema_finding width) = Ok (op_extrema op)) /\
  (exists v, slookup ek "omega_gw_extrema_interpolation_method" = Some v /\ interp_of v = Ok (op_interp op)) /\
  (exists v x d, slookup ek "special_interp_kwargs_for_omega_gw_extrema" = Some v /\ subdict v = Ok x /\
     check_kwargs_and_set_defaults x match op_interp op with SplineMethod => default_spline | RationalMethod => default_rational end = Ok d /\
     match op_interp op with SplineMethod => spline_of d = Ok (op_special op) | RationalMethod => degrees_of d = Ok (op_degrees op) end) /\
  (exists v x d, slookup ek "general_interp_kwargs" = Some v /\ subdict v = Ok x /\ check_kwargs_and_set_defaults x default_spline = Ok d /\
     spline_of d = Ok (op_general op)) /\
  (exists v, slookup ek "omega_gw_averaging_method" = Some v /\ op_average op = name_of v) /\
  (exists v, slookup ek "treat_mid_points_between_pericenters_as_apocenters" = Some v /\ op_midpoints op = truthy v) /\
  (exists v, slookup ek "return_zero_if_small_ecc_failure" = Some v /\ op_return_zero op = truthy v) /\
  (exists v, slookup ek "refine_extrema" = Some v /\ op_refine op = truthy v) /\
  slookup ek "kwargs_for_fits_methods" = Some (op_fits op).
Proof.
  assert (G : forall k (v : pyval), sget ek k = Ok v -> slookup ek k = Some v).
  { intros k v. rewrite sget_lookup. destruct (slookup ek k); intros H; [apply Ok_inj in H; now subst|discriminate]. }
  unfold read_options. intros H.
  apply bind_ok in H; destruct H as (xk & E1 & H). apply bind_ok in H; destruct H as (im & E2 & H).
  apply bind_ok in H; destruct H as (sk & E3 & H). apply bind_ok in H; destruct H as (sp & E4 & H).
  apply bind_ok in H; destruct H as (dg & E5 & H). apply bind_ok in H; destruct H as (gk & E6 & H).
  apply bind_ok in H; destruct H as (g & E7 & H). apply bind_ok in H; destruct H as (avg & E8 & H).
  apply bind_ok in H; destruct H as (mid & E9 & H). apply bind_ok in H; destruct H as (rz & E10 & H).
  apply bind_ok in H; destruct H as (fk & E11 & H). apply bind_ok in H; destruct H as (rfn & E12 & H). apply Ok_inj in H. subst op.
  cbn [op_extrema op_interp op_special op_degrees op_general op_average op_midpoints op_return_zero op_fits op_refine].
  apply bind_ok in E1; destruct E1 as (v1 & V1 & E1). apply bind_ok in E1; destruct E1 as (x1 & X1 & E1).
  apply bind_ok in E2; destruct E2 as (v2 & V2 & E2). apply bind_ok in E3; destruct E3 as (v3 & V3 & E3).
  apply bind_ok in E3; destruct E3 as (x3 & X3 & E3). apply bind_ok in E6; destruct E6 as (v6 & V6 & E6).
  apply bind_ok in E6; destruct E6 as (x6 & X6 & E6).
  split; [exists v1, x1; auto|]. split; [exists v2; auto|]. split; [exists v3, x3, sk; destruct im; auto|].
  split; [exists v6, x6, gk; auto|]. split; [exists avg; auto|]. split; [exists mid; auto|]. split; [exists rz; auto|]. split; [exists rfn; auto|]. now apply G.
Qed.
Lemma orbits_used v n : orbits_of v = Ok n -> match n with None => false | Some q => negb (Qeq_bool q 0) end = truthy v.
Proof.
  unfold orbits_of. destruct (truthy v) eqn:T; cbn [negb]; intros H; [|apply Ok_inj in H; now subst].
  destruct v as [[]|]; try discriminate; apply Ok_inj in H; subst n; try reflexivity. cbn in *. exact T.
Qed.

Section S.
  Context {C V : Type} (L : library C V).
  Lemma residual_degree h a d wv tm g r g' : compute_residual L h a d wv tm g = Ok (r, g') -> sp_k g' = sp_k g.
  Proof.
    unfold compute_residual. intros H.
    repeat match type of H with
    | bind _ _ = Ok _ => apply bind_ok in H; destruct H as (? & _ & H)
    | (let _ := _ in _) = Ok _ => cbv zeta in H
    | (let '(_, _) := ?x in _) = Ok _ => destruct x
    | (if ?c then _ else _) = Ok _ => destruct c; try discriminate
    end.
    apply Ok_inj in H. injection H as _ <-.
    repeat match goal with |- context [get_interpolant ?x ?y ?al ?k (Some ?d)] =>
      let d' := fresh "d'" in let A := fresh in let B := fresh in
      destruct (get_interpolant_k_unchanged x y al k d) as (d' & A & B); rewrite A, B; clear A B end.
    reflexivity.
  Qed.
  Lemma build_fits m a p (w w' : world C) l o : build L m a p w = (w', (l, Ok o)) -> In m ["AmplitudeFits"; "FrequencyFits"] ->
    exists x, subdict (b_fits_kwargs (o_base o)) = Ok x /\ check_kwargs_and_set_defaults x (default_fits (String.eqb m "AmplitudeFits")) = Ok (o_fits o).
  Proof.
    intros H Hm. unfold build in H. apply wbind_ok in H. destruct H as (w1 & l1 & l2 & b & E & H & ->). cbv zeta in H.
    destruct Hm as [<-|[<-|[]]]; cbn [String.eqb Ascii.eqb Bool.eqb] in H |- *;
      (apply wbind_ok in H; destruct H as (w2 & ? & ? & fk & X1 & H & ->); apply wlift_ok in X1; destruct X1 as (-> & -> & X1);
       apply wbind_ok in H; destruct H as (w3 & ? & ? & dt & X2 & H & ->); apply wlift_ok in X2; destruct X2 as (-> & -> & _);
       apply wret_ok in H; destruct H as (_ & _ & ->); cbn [o_base o_fits];
       apply bind_ok in X1; destruct X1 as (x & Ex & X1); exists x; auto).
  Qed.
  Lemma options_obeyed m a p (w w' : world C) l d o s : measure_eccentricity L m a p w = (w', (l, Ok d)) ->
    slookup d "gwecc_object" = Some (EObject o s) -> obeys match wd_extra w with None => [] | Some e => e end m o.
  Proof.
    intros H Ho. apply measure_result in H. destruct H as (_ & o' & s' & r & l1 & l2 & H & _ & _ & _ & Ho' & _).
    rewrite Ho in Ho'. injection Ho' as <- <-. assert (BF := build_fits _ _ _ _ _ _ _ H). apply build_method in H.
    destruct H as (_ & w1 & l3 & H & _). apply init_ok in H.
    destruct H as (rf & pd & t & gw & fl & extra & ek & n & wv & op & user & rs & m1 & m2 & h' & _ & _ & _ & _ & _ & _ & F & _ & K & N & _ & O & _ & _ & R & B & _).
    set (e := match wd_extra w with None => [] | Some e => e end).
    assert (X : forall k v, k <> "filter_kwargs" -> slookup (fill_defaults e default_extra) k = Some v <-> slookup ek k = Some v).
    { apply kwargs_ok in K. destruct K as [_ ->]. intros k v Hk. rewrite !fill_lookup.
      apply filter_part_ok in F. cbn [wd_extra] in F. destruct F as [(_ & _ & -> & _)|(_ & u & fk & _ & _ & _ & -> & _)].
      - unfold e. destruct (wd_extra w); reflexivity.
      - rewrite slookup_sset. apply String.eqb_neq in Hk. now rewrite Hk. }
    clear K F. set (D := fill_defaults e default_extra) in *.
    assert (Y : forall k v v', set_to e k v -> slookup ek k = Some v' -> k <> "filter_kwargs" -> v = v').
    { intros k v v' S E Hk. apply set_fill in S. fold D in S. apply X in S; [|exact Hk]. congruence. }
    assert (W : forall k u v x, with_options e k u -> slookup ek k = Some v -> subdict v = Ok x -> k <> "filter_kwargs" ->
                match x with None => [] | Some d => d end = u).
    { intros k u v x S E Sx Hk. eapply with_subdict; [exact S|apply X; [exact Hk|exact E]|exact Sx]. }
    clearbody D. clear X.
    assert (G : sp_k (snd rs) = sp_k (op_general op)).
    { unfold residual_part in R. destruct (_ && _)%bool; [|apply Ok_inj in R; now subst rs].
      apply bind_ok in R; destruct R as ([r0 g0] & Er & R). apply Ok_inj in R. subst rs. cbn [snd]. now apply residual_degree in Er. }
    apply bind_ok in N; destruct N as (nv & Nv & N). rewrite sget_lookup in Nv.
    destruct (slookup ek "use_only_these_many_orbits") as [v0|] eqn:V0; [|discriminate]. apply Ok_inj in Nv. subst v0.
    destruct (options_ok _ _ _ O) as ((v1 & x1 & V1 & X1 & E1) & (v2 & V2 & E2) & (v3 & x3 & d3 & V3 & X3 & E3 & S3) &
      (v4 & x4 & d4 & V4 & X4 & E4 & S4) & (v5 & V5 & E5) & (v6 & V6 & E6) & (v7 & V7 & E7) & (v9 & V9 & E9) & V8). clear O.
    unfold obeys. rewrite B. unfold base_of.
    cbn [b_config b_degrees b_refine b_extrema_kwargs c_midpoints c_return_zero c_use_only c_average c_interp c_general c_special].
    split; [intros v S; rewrite (Y _ _ _ S V6 ltac:(discriminate)); exact E6|].
    split; [intros v S; rewrite (Y _ _ _ S V7 ltac:(discriminate)); exact E7|].
    split; [intros v S; rewrite (Y _ _ _ S V0 ltac:(discriminate)); now apply orbits_used|].
    split; [intros v S; rewrite (Y _ _ _ S V9 ltac:(discriminate)); exact E9|].
    split; [intros v S; rewrite E5, <- (Y _ _ _ S V5 ltac:(discriminate)); reflexivity|].
    split; [intros S; rewrite <- (Y _ _ _ S V2 ltac:(discriminate)) in E2; cbn in E2; now apply Ok_inj in E2|].
    split; [intros S; rewrite <- (Y _ _ _ S V2 ltac:(discriminate)) in E2; cbn in E2; now apply Ok_inj in E2|].
    split. { intros u S. rewrite G. assert (U := W _ _ _ _ S V4 X4 ltac:(discriminate)). eapply spline_entries; [|exact S4].
             rewrite <- U. now apply complete_ok. }
    split. { intros u S. assert (U := W _ _ _ _ S V3 X3 ltac:(discriminate)). destruct (op_interp op).
             - eapply spline_entries; [|exact S3]. rewrite <- U. now apply complete_ok.
             - eapply degrees_entries; [|exact S3]. rewrite <- U. now apply complete_ok. }
    split. { intros u S. assert (U := W _ _ _ _ S V1 X1 ltac:(discriminate)). exists (inject_Z (p_width C pd)). intros k.
             rewrite (complete_ok _ _ _ E1 k), U. reflexivity. }
    intros u Hm S. destruct (BF Hm) as (x & Ex & Ef). rewrite B in Ex. cbn [base_of b_fits_kwargs] in Ex.
    assert (U := W _ _ _ _ S V8 Ex ltac:(discriminate)). intros k. rewrite (complete_ok _ _ _ Ef k), U. reflexivity.
  Qed.
End S.

(** The tables written out in the specification are those of the code. *)
Lemma documented_options_same k v : slookup documented_options k = Some v -> slookup default_extra k = Some v.
Proof.
  intros H. destruct (in_dec string_dec k (map fst documented_options)) as [I|N].
  - cbn in I. repeat (destruct I as [<-|I]; [exact H|]). contradiction.
  - exfalso. rewrite (proj2 (slookup_none documented_options k) N) in H. discriminate.
Qed.
Lemma documented_filter_same k : slookup documented_filter k = slookup default_filter k.
Proof.
  destruct (in_dec string_dec k (map fst documented_filter)) as [I|N].
  - cbn in I. repeat (destruct I as [<-|I]; [reflexivity|]). contradiction.
  - rewrite (proj2 (slookup_none documented_filter k) N). symmetry. apply slookup_none. intros H. apply N. cbn in *. tauto.
Qed.
Lemma omitted_documented C V (L : library C V) m a p h (x : option kwargs) k v : slookup documented_options k = Some v ->
  slookup match x with None => [] | Some e => e end k = None ->
  let with_default := {| wd_heap := h; wd_extra := Some (match x with None => [] | Some e => e end ++ [(k, v)])%list |} in
  let without := {| wd_heap := h; wd_extra := x |} in
  wd_heap (fst (measure_eccentricity L m a p with_default)) = wd_heap (fst (measure_eccentricity L m a p without)) /\
  snd (measure_eccentricity L m a p with_default) = snd (measure_eccentricity L m a p without).
Proof. intros H. apply documented_options_same in H. exact (omitted_option L m a p h x k v H). Qed.
Lemma filter_documented C V (L : library C V) m a p (w w' : world C) l d e :
  measure_eccentricity L m a p w = (w', (l, Ok d)) -> a_precessing a = true -> wd_extra w = Some e ->
  exists e' fk, wd_extra w' = Some e' /\ slookup e' "filter_kwargs" = Some (Dict fk) /\
    (forall k, k <> "filter_kwargs" -> slookup e' k = slookup e k) /\
    (forall k v, slookup fk k = Some v <->
       match slookup e "filter_kwargs" with
       | Some (Dict u) => slookup u k = Some v \/ (slookup u k = None /\ slookup documented_filter k = Some v)
       | _ => slookup documented_filter k = Some v
       end).
Proof.
  intros M P E. destruct (filter_completed L m a p w w' l d e M P E) as (e' & fk & A & B & D & F).
  exists e', fk. split; [exact A|]. split; [exact B|]. split; [exact D|]. intros k v. rewrite documented_filter_same. apply F.
Qed.
