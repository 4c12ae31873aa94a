(** Proofs that equivalent options give the same outcome: omitted options and their defaults, and repeated calls. *)
From Verif Require Import Base BaseLemmas UtilsModel UtilsSpec UtilsLemmas ExtremaModel RationalModel MeasureModel MeasureSpec LevelLemmas
  SegmentModel SegmentSpec SegmentLemmas DataModel DataSpec DataLemmas DataLemmas2 InitModel InitSpec InitLemmas InitOptions.
Open Scope string_scope.
Open Scope nat_scope.

Lemma fill_complete {V} (D : sdict V) : forall u, (forall k, has D k -> has u k) -> fill_defaults u D = u.
Proof.
  induction D as [|[k v] D IH]; intros u H; [reflexivity|]. unfold fill_defaults in *. cbn [fold_left fst snd].
  assert (M : smem u k = true). { apply has_mem. apply H. left. reflexivity. }
  rewrite M. apply IH. intros x Hx. apply H. right. exact Hx.
Qed.
Lemma fill_has {V} (D u : sdict V) k : has (fill_defaults u D) k <-> has u k \/ has D k.
Proof.
  rewrite !has_mem. unfold smem, dmem. fold (slookup (fill_defaults u D) k). fold (slookup u k). fold (slookup D k). rewrite fill_lookup.
  destruct (slookup u k), (slookup D k); intuition congruence.
Qed.
Lemma kwargs_again {V} (u : option (sdict V)) D r : check_kwargs_and_set_defaults u D = Ok r -> check_kwargs_and_set_defaults (Some r) D = Ok r.
Proof.
  intros H. apply kwargs_ok in H. destruct H as [H ->]. set (u' := match u with Some u => u | None => [] end) in *.
  unfold check_kwargs_and_set_defaults. replace (forallb _ _) with true.
  - f_equal. apply fill_complete. intros k Hk. apply fill_has. auto.
  - symmetry. apply forallb_forall. intros k Hk. apply has_mem. change (has (fill_defaults u' D) k) in Hk. apply fill_has in Hk. destruct Hk; auto.
Qed.
Lemma has_sset {V} (d : sdict V) k v x : has (sset d k v) x <-> x = k \/ has d x.
Proof.
  rewrite !has_mem. unfold smem, dmem. fold (slookup (sset d k v) x). fold (slookup d x). rewrite slookup_sset.
  destruct (String.eqb x k) eqn:E.
  - apply String.eqb_eq in E. intuition.
  - apply String.eqb_neq in E. intuition.
Qed.
(** ** the options an extra_kwargs argument stands for *)
Definition extra_dict (x : option kwargs) : kwargs := match x with None => [] | Some e => e end.
Definition eff (x : option kwargs) (k : string) : option pyval :=
  match slookup (extra_dict x) k with Some v => Some v | None => slookup default_extra k end.
Definition filter_user (x : option kwargs) : res (option (sdict leaf)) :=
  match slookup (extra_dict x) "filter_kwargs" with None => Ok (Some []) | Some v => subdict v end.
Definition filter_check (x : option kwargs) : res (sdict leaf) :=
  do u <- filter_user x; check_kwargs_and_set_defaults u default_filter.
Record same_options (x y : option kwargs) : Prop := {
  so_eff : forall k, k <> "filter_kwargs" -> eff x k = eff y k;
  so_filter : filter_check x = filter_check y;
  so_unknown : (exists k, has (extra_dict x) k /\ ~ has default_extra k) <-> (exists k, has (extra_dict y) k /\ ~ has default_extra k)
}.
Lemma so_refl x : same_options x x.
Proof. constructor; tauto. Qed.
Lemma so_sym x y : same_options x y -> same_options y x.
Proof. intros [H1 H2 H3]. constructor; [intros; symmetry; auto|auto|tauto]. Qed.
Lemma so_trans x y z : same_options x y -> same_options y z -> same_options x z.
Proof. intros [H1 H2 H3] [G1 G2 G3]. constructor; [intros; rewrite H1; auto|congruence|tauto]. Qed.
Lemma check_eq (x : option kwargs) D : check_kwargs_and_set_defaults x D =
  if forallb (fun kw => smem D kw) (dkeys (extra_dict x)) then Ok (fill_defaults (extra_dict x) D) else Err ValueError.
Proof. destruct x; reflexivity. Qed.
Lemma check_known (x y : option kwargs) :
  ((exists k, has (extra_dict x) k /\ ~ has default_extra k) <-> (exists k, has (extra_dict y) k /\ ~ has default_extra k)) ->
  match check_kwargs_and_set_defaults x default_extra, check_kwargs_and_set_defaults y default_extra with
  | Ok a, Ok b => a = fill_defaults (extra_dict x) default_extra /\ b = fill_defaults (extra_dict y) default_extra
  | Err e, Err e' => e = e'
  | _, _ => False
  end.
Proof.
  intros H. rewrite !check_eq.
  assert (X : forall d : kwargs, forallb (fun kw => smem default_extra kw) (dkeys d) = false <-> (exists k, has d k /\ ~ has default_extra k)).
  { intros d. split.
    - intros F. destruct (forallb (fun kw => smem default_extra kw) (dkeys d)) eqn:G; [discriminate|]. clear F.
      induction d as [|[k v] d IH]; [discriminate|]. cbn [dkeys map forallb fst] in G. apply Bool.andb_false_iff in G. destruct G as [G|G].
      + exists k. split; [left; reflexivity|]. rewrite has_mem, G. discriminate.
      + destruct (IH G) as (k' & A & B). exists k'. split; [right; exact A|exact B].
    - intros (k & A & B). destruct (forallb _ _) eqn:G; [|reflexivity]. rewrite forallb_forall in G. apply G in A. now apply has_mem in A. }
  destruct (forallb _ (dkeys (extra_dict x))) eqn:F1; destruct (forallb _ (dkeys (extra_dict y))) eqn:F2; auto.
  - apply X in F2. apply H in F2. apply X in F2. congruence.
  - apply X in F1. apply H in F1. apply X in F1. congruence.
Qed.
Lemma options_ext ek ek' width : (forall k, k <> "filter_kwargs" -> slookup ek k = slookup ek' k) -> read_options ek width = read_options ek' width.
Proof. intros H. unfold read_options. rewrite !sget_lookup, !H by discriminate. reflexivity. Qed.

Section S.
  Context {C V : Type} (L : library C V).
  Notation world := (world C).
  Notation measure := (measure_eccentricity L).

  (** ** two runs side by side *)
  Definition sim {A B} (P P' : world -> world -> Prop) (Q : A -> B -> Prop) (m : W A) (m2 : W B) : Prop :=
    forall w w2, P w w2 -> wd_heap (fst (m w)) = wd_heap (fst (m2 w2)) /\ fst (snd (m w)) = fst (snd (m2 w2)) /\
      match snd (snd (m w)), snd (snd (m2 w2)) with
      | Ok a, Ok b => Q a b /\ P' (fst (m w)) (fst (m2 w2)) | Err e, Err e' => e = e' | _, _ => False end.
  Lemma sim_bind {A B A2 B2} (P P1 P2 : world -> world -> Prop) (Q : A -> A2 -> Prop) (Q' : B -> B2 -> Prop) m m2 k k2 :
    sim P P1 Q m m2 -> (forall a a2, Q a a2 -> sim P1 P2 Q' (k a) (k2 a2)) -> sim P P2 Q' (wbind m k) (wbind m2 k2).
  Proof.
    intros Hm Hk w w2 Hp. destruct (Hm w w2 Hp) as (H1 & H2 & H3). unfold wbind. cbv zeta.
    destruct (m w) as [v1 [l1 [a|e]]], (m2 w2) as [v2 [l2 [a2|e2]]]; cbn in *; try (elim H3; fail); auto.
    destruct H3 as [Hq Hp1]. destruct (Hk a a2 Hq v1 v2 Hp1) as (G1 & G2 & G3).
    destruct (k a v1) as [u1 [n1 [b|e]]], (k2 a2 v2) as [u2 [n2 [b2|e2]]]; cbn in *; try (elim G3; fail); subst; auto.
  Qed.
  Definition same_heap (w w2 : world) : Prop := wd_heap w = wd_heap w2.
  Definition same_world (w w2 : world) : Prop := wd_heap w = wd_heap w2 /\ same_options (wd_extra w) (wd_extra w2).
  Lemma sim_lift {A} (P : world -> world -> Prop) (r : res A) : (forall w w2, P w w2 -> same_heap w w2) -> sim P P eq (wlift r) (wlift r).
  Proof. intros HP w w2 H. cbn. split; [apply HP, H|]. split; [reflexivity|]. destruct r; auto. Qed.
  Lemma sim_log {A} (P : world -> world -> Prop) (r : lg A) : (forall w w2, P w w2 -> same_heap w w2) -> sim P P eq (wlog r) (wlog r).
  Proof. intros HP w w2 H. cbn. split; [apply HP, H|]. split; [reflexivity|]. destruct (snd r); auto. Qed.
  Lemma sim_read {A} (P : world -> world -> Prop) (f : heap C -> res A) : (forall w w2, P w w2 -> same_heap w w2) -> sim P P eq (wread f) (wread f).
  Proof. intros HP w w2 H. unfold wread. rewrite (HP w w2 H). cbn. split; [apply HP, H|]. split; [reflexivity|]. destruct (f (wd_heap w2)); auto. Qed.
  Lemma sim_ret {A B} (P : world -> world -> Prop) (Q : A -> B -> Prop) a b : (forall w w2, P w w2 -> same_heap w w2) -> Q a b ->
    sim P P Q (wret a) (wret b).
  Proof. intros HP Hq w w2 H. cbn. split; [apply HP, H|]. split; [reflexivity|]. auto. Qed.
  Lemma sim_heap {A} (m : M C A) : sim same_world same_world eq (on_heap m) (on_heap m).
  Proof.
    intros w w2 [H1 H2]. unfold on_heap. rewrite H1. cbn. split; [reflexivity|]. split; [reflexivity|].
    destruct (snd (snd (m (wd_heap w2)))); [|reflexivity]. split; [reflexivity|]. split; [reflexivity|exact H2].
  Qed.
  Lemma sw_heap w w2 : same_world w w2 -> same_heap w w2.
  Proof. intros [H _]. exact H. Qed.
  Lemma sh_heap w w2 : same_heap w w2 -> same_heap w w2.
  Proof. auto. Qed.
  (** the options as used after filtering *)
  Definition same_use (x y : option kwargs) : Prop :=
    (forall k, k <> "filter_kwargs" -> eff x k = eff y k) /\
    ((exists k, has (extra_dict x) k /\ ~ has default_extra k) <-> (exists k, has (extra_dict y) k /\ ~ has default_extra k)).
  Lemma unknown_sset (x : option kwargs) v :
    (exists k, has (extra_dict (Some (sset (extra_dict x) "filter_kwargs" v))) k /\ ~ has default_extra k) <->
    (exists k, has (extra_dict x) k /\ ~ has default_extra k).
  Proof.
    split; intros (k & A & B); exists k; (split; [|exact B]).
    - cbn [extra_dict] in A. apply has_sset in A. destruct A as [->|A]; [elim B; right; right; right; right; right; right; right; right; right; right; right; left; reflexivity|exact A].
    - cbn [extra_dict]. apply has_sset. auto.
  Qed.
  Lemma eff_sset (x : option kwargs) v k : k <> "filter_kwargs" -> eff (Some (sset (extra_dict x) "filter_kwargs" v)) k = eff x k.
  Proof. intros H. unfold eff. cbn [extra_dict]. rewrite slookup_sset. apply String.eqb_neq in H. now rewrite H. Qed.
  Lemma use_sset x y v v2 : same_options x y -> same_use (Some (sset (extra_dict x) "filter_kwargs" v)) (Some (sset (extra_dict y) "filter_kwargs" v2)).
  Proof.
    intros [H1 H2 H3]. split.
    - intros k Hk. rewrite !eff_sset by exact Hk. auto.
    - rewrite !unknown_sset. exact H3.
  Qed.

  (** the filter step, in a form that shows what it depends on *)
  Definition mid_extra (w : world) (fk : sdict leaf) : option kwargs :=
    match wd_extra w with
    | Some e => match slookup e "filter_kwargs" with Some (Dict _) => Some (sset e "filter_kwargs" (Dict fk)) | _ => Some e end
    | None => None
    end.
  Definition end_extra (w : world) (fk : sdict leaf) : option kwargs :=
    match wd_extra w with Some e => Some (sset e "filter_kwargs" (Dict fk)) | None => None end.
  Lemma filter_step_eq tm d w :
    filter_step L tm d w =
    match filter_check (wd_extra w) with
    | Err e => (w, ([], Err e))
    | Ok fk =>
        let x := lib_filter L (deepcopy C (wd_heap w) d) tm fk in
        match snd x with
        | Err e => ({| wd_heap := wd_heap w; wd_extra := mid_extra w fk |}, (fst x, Err e))
        | Ok fl => ({| wd_heap := wd_heap w; wd_extra := end_extra w fk |},
                    (fst x, Ok (fl, Some (sset (extra_dict (wd_extra w)) "filter_kwargs" (Dict fk)))))
        end
    end.
  Proof.
    destruct w as [h x]. unfold filter_step, filter_check, filter_user. cbv zeta. cbn [wd_extra wd_heap].
    change (match x with None => [] | Some e => e end) with (extra_dict x).
    destruct (match slookup (extra_dict x) "filter_kwargs" with Some v => subdict v | None => Ok (Some []) end) as [u|e]; [|reflexivity]. cbn [bind].
    rewrite (wstep_ok (wlift (Ok u)) _ _ _ u eq_refl).
    destruct (check_kwargs_and_set_defaults u default_filter) as [fk|e]; [|reflexivity].
    rewrite (wstep_ok (wlift (Ok fk)) _ _ _ fk eq_refl).
    assert (X : forall y, let z := lib_filter L (deepcopy C h d) tm fk in
      wbind (wread (fun h => Ok (deepcopy C h d))) (fun copy => wbind (wlog (lib_filter L copy tm fk)) (fun fl =>
        wbind (match x with Some _ => set_extra (Some (sset (extra_dict x) "filter_kwargs" (Dict fk))) | None => wret tt end) (fun _ =>
        wret (fl, Some (sset (extra_dict x) "filter_kwargs" (Dict fk)))))) {| wd_heap := h; wd_extra := y |} =
      match snd z with
      | Err e => ({| wd_heap := h; wd_extra := y |}, (fst z, Err e))
      | Ok fl => ({| wd_heap := h; wd_extra := match x with Some e => Some (sset e "filter_kwargs" (Dict fk)) | None => y end |},
                  (fst z, Ok (fl, Some (sset (extra_dict x) "filter_kwargs" (Dict fk))))) end).
    { intros y. unfold wbind at 1. cbv zeta. cbn [wread lift fst snd wd_heap]. unfold wbind at 1. cbv zeta. cbn [wlog fst snd].
      destruct (lib_filter L (deepcopy C h d) tm fk) as [lf [fl|e]]; cbn [fst snd]; [|reflexivity].
      destruct x; cbn; now rewrite app_nil_r. }
    cbv zeta in X |- *.
    destruct x as [e|]; cbn [extra_dict] in *; unfold mid_extra, end_extra; cbn [wd_extra].
    - destruct (slookup e "filter_kwargs") as [[]|].
      + rewrite (wstep_ok (wret tt) _ _ _ tt eq_refl), X. destruct (snd (lib_filter L (deepcopy C h d) tm fk)); reflexivity.
      + rewrite (wstep_ok (set_extra _) _ _ _ tt eq_refl), X. destruct (snd (lib_filter L (deepcopy C h d) tm fk)); reflexivity.
      + rewrite (wstep_ok (wret tt) _ _ _ tt eq_refl), X. destruct (snd (lib_filter L (deepcopy C h d) tm fk)); reflexivity.
    - rewrite (wstep_ok (wret tt) _ _ _ tt eq_refl), X. destruct (snd (lib_filter L (deepcopy C h d) tm fk)); reflexivity.
  Qed.
  Lemma sim_filter tm d : sim same_world same_heap (fun f f2 => fst f = fst f2 /\ same_use (snd f) (snd f2)) (filter_step L tm d) (filter_step L tm d).
  Proof.
    intros w w2 [H1 H2]. rewrite !filter_step_eq. rewrite <- (so_filter _ _ H2), <- H1.
    destruct (filter_check (wd_extra w)) as [fk|e]; [|cbn; auto]. cbv zeta.
    destruct (snd (lib_filter L (deepcopy C (wd_heap w) d) tm fk)); cbn; [|auto].
    split; [reflexivity|]. split; [reflexivity|]. split; [|reflexivity]. split; [reflexivity|]. now apply use_sset.
  Qed.
  Lemma use_options x y : same_options x y -> same_use x y.
  Proof. intros [H1 _ H3]. split; assumption. Qed.

  Lemma sim_init a p : sim same_world same_heap eq (init L a p) (init L a p).
  Proof.
    unfold init.
    eapply sim_bind; [apply sim_lift, sw_heap|]. intros rf ? <-.
    eapply sim_bind; [apply sim_lift, sw_heap|]. intros [] ? <-.
    eapply sim_bind; [apply sim_heap|]. intros pd ? <-. cbv zeta.
    eapply sim_bind; [apply sim_lift, sw_heap|]. intros t ? <-.
    eapply sim_bind; [apply sim_lift, sw_heap|]. intros [] ? <-.
    eapply sim_bind; [apply sim_read, sw_heap|]. intros gw ? <-.
    eapply (sim_bind same_world same_heap same_heap (fun f f2 => fst f = fst f2 /\ same_use (snd f) (snd f2))).
    { destruct (a_precessing a); [apply sim_filter|]. intros w w2 [H1 H2]. cbn. split; [exact H1|]. split; [reflexivity|].
      split; [|exact H1]. split; [reflexivity|]. now apply use_options. }
    intros [fl x] [fl2 x2] [Hfl [Hu1 Hu2]]. cbn [fst snd] in *. subst fl2.
    eapply (sim_bind same_heap same_heap same_heap (fun ek ek2 => forall k, k <> "filter_kwargs" -> slookup ek k = slookup ek2 k)).
    { intros w w2 H. cbn. split; [exact H|]. split; [reflexivity|]. pose proof (check_known x x2 Hu2) as K.
      destruct (check_kwargs_and_set_defaults x default_extra), (check_kwargs_and_set_defaults x2 default_extra); auto.
      destruct K as [-> ->]. split; [|exact H]. intros k Hk. rewrite !fill_lookup. apply Hu1, Hk. }
    intros ek ek2 Hek. rewrite (options_ext ek ek2 _ Hek). rewrite !sget_lookup. rewrite (Hek "use_only_these_many_orbits") by discriminate.
    eapply sim_bind; [apply sim_lift, sh_heap|]. intros n ? <-.
    eapply sim_bind; [apply sim_log, sh_heap|]. intros wv ? <-.
    eapply sim_bind; [apply sim_lift, sh_heap|]. intros op ? <-.
    eapply sim_bind; [apply sim_read, sh_heap|]. intros user ? <-.
    eapply sim_bind; [apply sim_log, sh_heap|]. intros [] ? <-.
    eapply sim_bind; [apply sim_read, sh_heap|]. intros rs ? <-.
    apply sim_ret; [apply sh_heap|reflexivity].
  Qed.
  Lemma sim_measure m a p : sim same_world same_heap eq (measure m a p) (measure m a p).
  Proof.
    unfold measure_eccentricity. destruct (existsb _ _).
    2:{ intros w w2 [H _]. cbn. auto. }
    eapply (sim_bind same_world same_heap same_heap eq).
    - unfold build. eapply sim_bind; [apply sim_init|]. intros b ? <-. cbv zeta.
      repeat (destruct (String.eqb m _); [repeat (eapply sim_bind; [apply sim_lift, sh_heap|]; intros ? ? <-); apply sim_ret; [apply sh_heap|reflexivity]|]).
      repeat (eapply sim_bind; [apply sim_lift, sh_heap|]; intros ? ? <-). apply sim_ret; [apply sh_heap|reflexivity].
    - intros o ? <-. cbv zeta. eapply sim_bind; [apply sim_log, sh_heap|]. intros r ? <-. apply sim_ret; [apply sh_heap|reflexivity].
  Qed.
  Lemma same_outcome m a p (w w2 : world) : same_world w w2 ->
    wd_heap (fst (measure m a p w)) = wd_heap (fst (measure m a p w2)) /\ snd (measure m a p w) = snd (measure m a p w2).
  Proof.
    intros H. destruct (sim_measure m a p w w2 H) as (H1 & H2 & H3). split; [exact H1|].
    destruct (measure m a p w) as [v1 [l1 [b|e]]], (measure m a p w2) as [v2 [l2 [b2|e2]]]; cbn in *; try (elim H3; fail).
    - destruct H3 as [-> _]. now subst.
    - now subst.
  Qed.

  (** ** omitted options *)
  Lemma default_unknown (x : option kwargs) k v : slookup default_extra k = Some v ->
    (exists k0, has (extra_dict x) k0 /\ ~ has default_extra k0) <->
    (exists k0, has (extra_dict x ++ [(k, v)])%list k0 /\ ~ has default_extra k0).
  Proof.
    intros H. apply has_lookup in H. unfold has at 3. split; intros (k0 & A & B); exists k0; (split; [|exact B]).
    - rewrite map_app. apply in_or_app. left. exact A.
    - rewrite map_app in A. apply in_app_or in A. destruct A as [A|[A|[]]]; [exact A|]. cbn in A. subst k0. now elim B.
  Qed.
  Lemma default_same (x : option kwargs) k v : slookup default_extra k = Some v -> slookup (extra_dict x) k = None ->
    same_options x (Some (extra_dict x ++ [(k, v)])%list).
  Proof.
    intros H1 H2.
    assert (E : forall k', eff x k' = eff (Some (extra_dict x ++ [(k, v)])%list) k').
    { intros k'. unfold eff. cbn [extra_dict]. rewrite slookup_app. destruct (slookup (extra_dict x) k') eqn:E; [reflexivity|].
      unfold slookup at 2. cbn [dlookup]. destruct (String.eqb k' k) eqn:X; [|reflexivity]. apply String.eqb_eq in X. subst k'. exact H1. }
    constructor.
    - intros k' _. apply E.
    - set (y := Some (extra_dict x ++ [(k, v)])%list) in *. unfold filter_check. replace (filter_user y) with (filter_user x); [reflexivity|].
      unfold filter_user. specialize (E "filter_kwargs"). unfold eff in E.
      change (slookup default_extra "filter_kwargs") with (Some (Dict [])) in E.
      destruct (slookup (extra_dict x) "filter_kwargs"), (slookup (extra_dict y) "filter_kwargs"); try (apply Some_inj in E; subst); reflexivity.
    - cbn [extra_dict]. now apply default_unknown.
  Qed.
  Lemma none_empty : same_options None (Some []).
  Proof. constructor; reflexivity. Qed.
  Lemma omitted_option m a p h (x : option kwargs) k v : slookup default_extra k = Some v ->
    slookup match x with None => [] | Some e => e end k = None ->
    let with_default := {| wd_heap := h; wd_extra := Some (match x with None => [] | Some e => e end ++ [(k, v)])%list |} in
    let without := {| wd_heap := h; wd_extra := x |} in
    wd_heap (fst (measure m a p with_default)) = wd_heap (fst (measure m a p without)) /\
    snd (measure m a p with_default) = snd (measure m a p without).
  Proof.
    intros H1 H2. cbv zeta. apply same_outcome. split; [reflexivity|]. cbn [wd_extra]. apply so_sym. now apply default_same.
  Qed.

  (** ** repeated calls *)
  Definition same_opts_world (w w2 : world) : Prop := same_options (wd_extra w) (wd_extra w2).
  Lemma sow_trans x y z : same_opts_world x y -> same_opts_world y z -> same_opts_world x z.
  Proof. apply so_trans. Qed.
  Lemma sow_same x y : same_extra x y -> same_opts_world x y.
  Proof. unfold same_extra, same_opts_world. intros ->. apply so_refl. Qed.
  Lemma completed_same (e : kwargs) fk : filter_check (Some e) = Ok fk -> same_options (Some e) (Some (sset e "filter_kwargs" (Dict fk))).
  Proof.
    intros H. constructor.
    - intros k Hk. symmetry. apply (eff_sset (Some e)). exact Hk.
    - rewrite H. unfold filter_check, filter_user. cbn [extra_dict]. rewrite slookup_sset, String.eqb_refl. cbn [subdict bind].
      unfold filter_check in H. inv_bind H. symmetry. now apply kwargs_again in H.
    - symmetry. apply (unknown_sset (Some e)).
  Qed.
  Lemma filter_step_sow tm d : keeps same_opts_world (filter_step L tm d).
  Proof.
    intros w. rewrite filter_step_eq. destruct (filter_check (wd_extra w)) as [fk|] eqn:F; [|apply so_refl]. cbv zeta.
    unfold same_opts_world. destruct (snd (lib_filter L (deepcopy C (wd_heap w) d) tm fk)) as [fl|er]; cbn [fst wd_extra]; unfold mid_extra, end_extra.
    - destruct (wd_extra w) as [e|]; [|apply so_refl]. now apply completed_same.
    - destruct (wd_extra w) as [e|]; [|apply so_refl]. destruct (slookup e "filter_kwargs") as [[]|]; try apply so_refl. now apply completed_same.
  Qed.
  Lemma measure_sow m a p : keeps same_opts_world (measure m a p).
  Proof. apply measure_keeps; [exact sow_trans|exact sow_same|intros _; exact filter_step_sow]. Qed.
  (** the heap only changes while the dictionary is read *)
  Definition heap_kept {A} (m : W A) : Prop := forall w : world, wd_heap (fst (m w)) = wd_heap w.
  Lemma kept_bind {A B} (m : W A) (k : A -> W B) : heap_kept m -> (forall a, heap_kept (k a)) -> heap_kept (wbind m k).
  Proof.
    intros Hm Hk w. unfold wbind. cbv zeta. specialize (Hm w). destruct (m w) as [w1 [l [a|e]]]; cbn in *; [|exact Hm]. now rewrite Hk.
  Qed.
  Lemma filter_step_kept tm d : heap_kept (filter_step L tm d).
  Proof.
    intros w. rewrite filter_step_eq. destruct (filter_check (wd_extra w)) as [fk|]; [|reflexivity]. cbv zeta.
    destruct (snd (lib_filter L (deepcopy C (wd_heap w) d) tm fk)); reflexivity.
  Qed.
  Lemma on_heap_kept {A B} (m : M C A) (k : A -> W B) (w : world) : (forall a, heap_kept (k a)) ->
    wd_heap (fst (wbind (on_heap m) k w)) = fst (m (wd_heap w)).
  Proof.
    intros Hk. unfold wbind. cbv zeta. unfold on_heap. cbv zeta. destruct (m (wd_heap w)) as [h [l [a|e]]]; cbn [fst snd wd_heap]; [|reflexivity].
    now rewrite Hk.
  Qed.
  Lemma measure_heap m a p (w : world) : wd_heap (fst (measure m a p w)) = wd_heap w \/
    wd_heap (fst (measure m a p w)) = fst (process L a p (wd_heap w)).
  Proof.
    unfold measure_eccentricity. destruct (existsb _ _); [|left; reflexivity].
    assert (I : wd_heap (fst (init L a p w)) = wd_heap w \/ wd_heap (fst (init L a p w)) = fst (process L a p (wd_heap w))).
    { unfold init. destruct (reference_of _ _) as [rf|]; [|left; reflexivity]. rewrite (wstep_ok (wlift (Ok rf)) _ _ _ rf eq_refl).
      destruct (if existsb _ _ then _ else _) as [u|]; [|left; reflexivity]. rewrite (wstep_ok (wlift (Ok u)) _ _ _ u eq_refl).
      fold (process L a p). right. rewrite on_heap_kept; [reflexivity|]. intros pd.
      repeat (apply kept_bind; [|intros]); try (intros x; reflexivity). destruct (a_precessing a); [apply filter_step_kept|intros x; reflexivity]. }
    set (fin := fun o => let x := measure_object L (a_level a) o in wbind (wlog (fst x, snd (snd x))) (fun r =>
      wret (dupdate String.eqb (return_dict r) [("gwecc_object", EObject o (fst (snd x)))]))).
    assert (F : forall o, heap_kept (fin o)). { intros o. unfold fin. cbv zeta. apply kept_bind; intros; intros x; reflexivity. }
    fold fin. unfold build. 
    assert (G : forall k : base -> W object, (forall b, heap_kept (k b)) ->
      wd_heap (fst (wbind (wbind (init L a p) k) fin w)) = wd_heap (fst (init L a p w))).
    { intros k Hk. unfold wbind at 1 2. cbv zeta. destruct (init L a p w) as [w1 [l1 [b|e]]]; cbn [fst snd]; [|reflexivity].
      specialize (Hk b w1). destruct (k b w1) as [w2 [l2 [o|e]]]; cbn [fst snd] in *; [|exact Hk]. now rewrite F. }
    rewrite G; [exact I|]. intros b. cbv zeta.
    repeat (destruct (String.eqb m _); [repeat (apply kept_bind; [|intros]); intros x; reflexivity|]).
    repeat (apply kept_bind; [|intros]); intros x; reflexivity.
  Qed.
  Lemma repeated m a p (w : world) d : is_dict (wd_heap w) p d ->
    (a_precessing a = true -> a_frame a = "inertial" -> has d "hlm") ->
    a_num a = None \/ ~ has d "omegalm" \/ (a_precessing a = true /\ a_frame a = "inertial") ->
    snd (measure m a p (fst (measure m a p w))) = snd (measure m a p w) /\
    wd_heap (fst (measure m a p w)) = wd_heap w.
  Proof.
    intros Hd H1 H2. assert (X : wd_heap (fst (measure m a p w)) = wd_heap w).
    { destruct (measure_heap m a p w) as [E|E]; [exact E|]. rewrite E. unfold process. now apply process_same with d. }
    split; [|exact X]. apply same_outcome. split; [exact X|]. apply so_sym. apply measure_sow.
  Qed.
End S.
