(** Debug levels: the result of a computation does not depend on the debug level. *)
From Verif Require Import Base BaseLemmas UtilsModel ExtremaModel ExtremaSpec ExtremaLemmas RationalModel MeasureModel.
Open Scope nat_scope.

(** Result and final object, without the warnings. *)
Definition run {A} (m : act A) (s : state) : state * res A := snd (m s).
Lemma run_bind {A B} (m : act A) (k : A -> act B) s :
  run (abind m k) s = match run m s with (s1, Ok a) => run (k a) s1 | (s1, Err e) => (s1, Err e) end.
Proof.
  unfold run, abind. destruct (m s) as [w [s1 [a|e]]]; cbn; [|reflexivity]. now destruct (k a s1).
Qed.
Lemma run_lift {A} (r : res A) s : run (alift r) s = (s, r).
Proof. reflexivity. Qed.
Lemma run_log {A} (x : lg A) s : run (alog x) s = (s, snd x).
Proof. reflexivity. Qed.
Lemma run_bind_ok {A B} (m : act A) (k : A -> act B) s s2 b :
  run (abind m k) s = (s2, Ok b) -> exists a s1, run m s = (s1, Ok a) /\ run (k a) s1 = (s2, Ok b).
Proof.
  rewrite run_bind. destruct (run m s) as [s1 [a|e]]; intros H; [eauto|discriminate H].
Qed.

(** level-independence *)
Definition lni {A} (c : Z -> lg A) : Prop := forall l,
  (quiet l -> snd (c l) = snd (c 0%Z)) /\ (forall v, snd (c l) = Ok v -> snd (c 0%Z) = Ok v).
Definition ani {A} (c : Z -> act A) : Prop := forall l s,
  (quiet l -> run (c l) s = run (c 0%Z) s) /\ (forall s' v, run (c l) s = (s', Ok v) -> run (c 0%Z) s = (s', Ok v)).

Lemma lni_const {A} (x : lg A) : lni (fun _ => x).
Proof. intros l. split; auto. Qed.
Lemma lni_dbg msg b : lni (fun l => dbg msg l b).
Proof.
  intros l. assert (Z0 : snd (dbg msg 0 b) = Ok tt) by (apply dbg_quiet; cbn; auto). split.
  - intros Q. rewrite Z0. now apply dbg_quiet.
  - intros [] _. exact Z0.
Qed.
Lemma lni_bind {A B} (c : Z -> lg A) (k : Z -> A -> lg B) :
  lni c -> (forall a, lni (fun l => k l a)) -> lni (fun l => lbind (c l) (k l)).
Proof.
  intros Hc Hk l. destruct (Hc l) as [Q V]. split.
  - intros q. specialize (Q q). destruct (snd (c 0%Z)) as [a|e] eqn:E.
    + rewrite (lbind_val (c l) (k l) a Q), (lbind_val (c 0%Z) (k 0%Z) a E). now apply Hk.
    + now rewrite (lbind_exn (c l) (k l) e Q), (lbind_exn (c 0%Z) (k 0%Z) e E).
  - intros v H. apply lbind_ok in H. destruct H as (a & H1 & H2).
    rewrite (lbind_val _ _ a (V a H1)). now apply (proj2 (Hk a l)).
Qed.
Lemma lni_if {A} (b : bool) (x y : Z -> lg A) : lni x -> lni y -> lni (fun l => if b then x l else y l).
Proof. destruct b; auto. Qed.
Lemma ani_const {A} (x : act A) : ani (fun _ => x).
Proof. intros l s. split; auto. Qed.
Lemma ani_log {A} (c : Z -> lg A) : lni c -> ani (fun l => alog (c l)).
Proof.
  intros H l s. destruct (H l) as [Q V]. rewrite !run_log. split.
  - intros q. now rewrite Q.
  - intros s' v E. injection E as E1 E2. subst s'. f_equal. now apply V.
Qed.
Lemma ani_bind {A B} (c : Z -> act A) (k : Z -> A -> act B) :
  ani c -> (forall a, ani (fun l => k l a)) -> ani (fun l => abind (c l) (k l)).
Proof.
  intros Hc Hk l s. destruct (Hc l s) as [Q V]. split.
  - intros q. rewrite !run_bind, (Q q). destruct (run (c 0%Z) s) as [s1 [a|e]]; auto. now apply Hk.
  - intros s' v H. apply run_bind_ok in H. destruct H as (a & s1 & H1 & H2).
    rewrite run_bind, (V _ _ H1). now apply (proj2 (Hk a l s1)).
Qed.
Lemma ani_if {A} (b : bool) (x y : Z -> act A) : ani x -> ani y -> ani (fun l => if b then x l else y l).
Proof. destruct b; auto. Qed.

Ltac lni_step :=
  first
  [ apply lni_dbg
  | apply lni_const
  | apply (lni_bind (fun l => _) (fun l a => _)); [|intros ?]
  | match goal with
    | |- lni (fun l => if ?b then _ else _) => apply lni_if
    | |- lni (fun l => match ?x with _ => _ end) => destruct x
    end ].

Lemma lni_jumps phase loc r : lni (fun l => drop_extrema_if_extrema_jumps l phase loc r).
Proof. unfold drop_extrema_if_extrema_jumps. repeat lni_step. Qed.
Lemma lni_close phase loc m : lni (fun l => drop_extrema_if_too_close l phase loc m).
Proof. unfold drop_extrema_if_too_close. repeat lni_step. Qed.
Lemma lni_ends p a : lni (fun l => drop_extra_extrema_at_ends l p a).
Proof. unfold drop_extra_extrema_at_ends. repeat lni_step. Qed.
Lemma lni_good phase p a : lni (fun l => get_good_extrema l phase p a).
Proof.
  unfold get_good_extrema. apply (lni_bind (fun l => drop_extrema_if_extrema_jumps l _ _ _)); [apply lni_jumps|intros p1].
  apply (lni_bind (fun l => drop_extrema_if_extrema_jumps l _ _ _)); [apply lni_jumps|intros a1].
  apply (lni_bind (fun l => drop_extrema_if_too_close l _ _ _)); [apply lni_close|intros p2].
  apply (lni_bind (fun l => drop_extrema_if_too_close l _ _ _)); [apply lni_close|intros a2].
  apply lni_ends.
Qed.
Lemma lni_lower {F} (ff : Z * Z -> res F) nm sp fuel : forall d h, lni (fun l => lower_loop ff nm sp fuel l d h).
Proof.
  induction fuel as [|k IH]; intros d h; cbn [lower_loop]; [apply lni_const|].
  repeat first [apply IH | lni_step].
Qed.
Lemma lni_raise {F} (ff : Z * Z -> res F) nm n fuel : forall d x h, lni (fun l => raise_loop ff nm n fuel l d x h).
Proof.
  induction fuel as [|k IH]; intros d x h; cbn [raise_loop]; [apply lni_const|].
  repeat first [apply IH | lni_step].
Qed.
Lemma lni_search {F} (ff : Z * Z -> res F) nm sp n u np na : lni (fun l => adaptive_search ff nm sp n l u np na).
Proof.
  unfold adaptive_search. repeat first [apply lni_lower | apply lni_raise | lni_step].
Qed.

Ltac ani_step :=
  first
  [ apply ani_const
  | apply ani_log; first [apply lni_dbg | apply lni_search | apply lni_good]
  | apply (ani_bind (fun l => _) (fun l a => _)); [|intros ?]
  | match goal with
    | |- ani (fun l => if ?b then _ else _) => apply ani_if
    | |- ani (fun l => match ?x with _ => _ end) => destruct x
    end ].


Lemma gated {A} (K : Z -> lg unit) (R : Z -> act A) :
  snd (K 0%Z) = Ok tt ->
  (forall l, quiet l -> snd (K l) = Ok tt \/
     (snd (K l) = Err IndexError /\ forall s, run (R 0%Z) s = (s, Err IndexError))) ->
  ani R -> ani (fun l => _ <~ alog (K l) ;; R l).
Proof.
  intros H0 HK HR l s. rewrite !run_bind, !run_log, H0. split.
  - intros q. destruct (HK l q) as [E|[E B]]; rewrite E.
    + now apply HR.
    + now rewrite B.
  - intros s' v. destruct (snd (K l)) as [u|e]; [|discriminate]. apply HR.
Qed.
Lemma gather_err {A} (l : list A) idx e : gather l idx = Err e -> e = IndexError.
Proof.
  revert e. induction idx as [|i r IH]; intros e H; cbn in H; [discriminate H|].
  unfold bind in H. destruct (get l i) as [a|e'] eqn:E.
  - destruct (gather l r) as [b|e''] eqn:G; [discriminate H|]. injection H as <-. now apply IH.
  - injection H as <-. now apply get_err in E.
Qed.
Lemma last_of_err_index {A} (l : list A) e : last_of l = Err e -> e = IndexError.
Proof. intros H. assert (N := last_of_err l e H). subst l. cbn in H. now injection H. Qed.
Lemma keep_le_incl l x : incl (keep_le l x) l.
Proof. intros y H. apply filter_In in H. apply H. Qed.
Lemma keep_ge_incl l x : incl (keep_ge l x) l.
Proof. intros y H. apply filter_In in H. apply H. Qed.
Ltac inv_ok H := apply Ok_inj in H; subst.
Lemma jumps_in l phase loc r out : snd (drop_extrema_if_extrema_jumps l phase loc r) = Ok out ->
  incl out loc /\ exists ph, gather phase loc = Ok ph.
Proof.
  intros H. unfold drop_extrema_if_extrema_jumps in H. apply lbind_ok in H. destruct H as (ph & G & H). cbn in G.
  split; [|eauto]. apply lbind_ok in H. destruct H as (loc1 & H1 & H).
  assert (I1 : incl loc1 loc).
  { destruct (where_idx _ _) as [|f ?] in H1; [cbn in H1; inv_ok H1; apply incl_refl|].
    destruct (_ <? f); [|cbn in H1; inv_ok H1; apply incl_refl].
    apply lbind_ok in H1. destruct H1 as (? & _ & H1). apply lbind_ok in H1. destruct H1 as (? & _ & H1).
    cbn in H1. inv_ok H1. apply keep_le_incl. }
  destruct (last_of _) as [x|e] in H; [|cbn in H; inv_ok H; exact I1].
  destruct (x <? _); [|cbn in H; inv_ok H; exact I1].
  apply lbind_ok in H. destruct H as (? & _ & H). apply lbind_ok in H. destruct H as (? & _ & H).
  cbn in H. inv_ok H. eapply incl_tran; [apply keep_ge_incl|exact I1].
Qed.
Lemma close_in l phase loc r out : snd (drop_extrema_if_too_close l phase loc r) = Ok out -> incl out loc.
Proof.
  intros H. unfold drop_extrema_if_too_close in H. apply lbind_ok in H. destruct H as (ph & G & H).
  destruct (where_idx _ _) as [|f w] in H; [cbn in H; inv_ok H; apply incl_refl|].
  destruct (last_of _) as [x|e] in H; [|cbn in H; inv_ok H; apply incl_refl].
  apply lbind_ok in H. destruct H as (loc1 & H1 & H).
  assert (I1 : incl loc1 loc).
  { destruct (_ <? f); [|cbn in H1; inv_ok H1; apply incl_refl].
    apply lbind_ok in H1. destruct H1 as (? & _ & H1). apply lbind_ok in H1. destruct H1 as (? & _ & H1).
    cbn in H1. inv_ok H1. apply keep_le_incl. }
  destruct (x <? _); [|cbn in H; inv_ok H; exact I1].
  apply lbind_ok in H. destruct H as (? & _ & H). apply lbind_ok in H. destruct H as (? & _ & H).
  cbn in H. inv_ok H. eapply incl_tran; [apply keep_ge_incl|exact I1].
Qed.
Lemma ends_in l p a p' a' : snd (drop_extra_extrema_at_ends l p a) = Ok (p', a') -> incl p' p /\ incl a' a.
Proof.
  intros H. unfold drop_extra_extrema_at_ends in H.
  apply lbind_ok in H. destruct H as (al & _ & H).
  apply lbind_ok in H. destruct H as (p1 & H1 & H).
  apply lbind_ok in H. destruct H as (pl & _ & H).
  apply lbind_ok in H. destruct H as (a1 & H2 & H).
  apply lbind_ok in H. destruct H as (af & _ & H).
  apply lbind_ok in H. destruct H as (p2 & H3 & H).
  apply lbind_ok in H. destruct H as (pf & _ & H).
  apply lbind_ok in H. destruct H as (a2 & H4 & H).
  cbn in H. apply Ok_inj in H. injection H as E1 E2. subst p' a'.
  assert (I1 : incl p1 p).
  { destruct (filter _ _) as [|x [|y z]] in H1; try (cbn in H1; inv_ok H1; apply incl_refl).
    apply lbind_ok in H1. destruct H1 as (? & _ & H1). cbn in H1. inv_ok H1. apply keep_le_incl. }
  assert (I2 : incl a1 a).
  { destruct (filter _ _) as [|x [|y z]] in H2; try (cbn in H2; inv_ok H2; apply incl_refl).
    apply lbind_ok in H2. destruct H2 as (? & _ & H2). cbn in H2. inv_ok H2. apply keep_le_incl. }
  assert (I3 : incl p2 p1).
  { destruct (1 <? _) in H3; [|cbn in H3; inv_ok H3; apply incl_refl].
    apply lbind_ok in H3. destruct H3 as (? & _ & H3). apply lbind_ok in H3. destruct H3 as (? & _ & H3).
    cbn in H3. inv_ok H3. apply keep_ge_incl. }
  assert (I4 : incl a2 a1).
  { destruct (1 <? _) in H4; [|cbn in H4; inv_ok H4; apply incl_refl].
    apply lbind_ok in H4. destruct H4 as (? & _ & H4). apply lbind_ok in H4. destruct H4 as (? & _ & H4).
    cbn in H4. inv_ok H4. apply keep_ge_incl. }
  split; eapply incl_tran; eassumption.
Qed.
Lemma good_in l phase p a p' a' : snd (get_good_extrema l phase p a) = Ok (p', a') ->
  incl p' p /\ incl a' a /\ (exists ph, gather phase p = Ok ph) /\ (exists ph, gather phase a = Ok ph).
Proof.
  intros H. unfold get_good_extrema in H.
  apply lbind_ok in H. destruct H as (p1 & H1 & H). apply jumps_in in H1. destruct H1 as [I1 G1].
  apply lbind_ok in H. destruct H as (a1 & H2 & H). apply jumps_in in H2. destruct H2 as [I2 G2].
  apply lbind_ok in H. destruct H as (p2 & H3 & H). apply close_in in H3.
  apply lbind_ok in H. destruct H as (a2 & H4 & H). apply close_in in H4.
  apply ends_in in H. destruct H as [I5 I6].
  repeat split; auto; repeat (eapply incl_tran; [eassumption|]); apply incl_refl.
Qed.
Lemma gather_incl {A} (l : list A) idx idx' ph : incl idx' idx -> gather l idx = Ok ph -> exists ph', gather l idx' = Ok ph'.
Proof.
  intros I G. apply gather_total. apply gather_inv in G. rewrite Forall_forall in *. auto.
Qed.
Section Level.
  Context {V : Type} (ecc_of : Q -> Q -> V) (vzero : V) (vneg : V -> bool) (find_extrema : bool -> res (list nat)).
  Context (sv : list Q -> list Q -> nat -> Q -> Q) (pv : list Q -> list Q -> Q -> Q).
  Context (rfit : list Q -> list Q -> Z * Z -> res curve) (slope : list Q -> list V -> list bool).
  Variable c : config.

  Lemma ani_rational np na x y : ani (fun l => rational_curve sv pv rfit l c np na x y).
  Proof. unfold rational_curve. repeat ani_step. Qed.
  Lemma ani_curve np na tc loc : ani (fun l => extrema_curve sv pv rfit l c np na tc loc).
  Proof. unfold extrema_curve. repeat first [apply ani_rational | ani_step]. Qed.
  Lemma ani_bounds m : ani (fun l => get_fref_bounds sv pv l c m).
  Proof. unfold get_fref_bounds. repeat ani_step. Qed.
  Lemma ani_fref_out f m : ani (fun l => get_fref_out sv pv l c f m).
  Proof. unfold get_fref_out. apply (ani_bind (fun l => get_fref_bounds sv pv l c _)); [apply ani_bounds|intros b]. apply ani_const. Qed.
  Lemma ani_tref f : ani (fun l => tref_fref_from_fref sv pv l c f).
  Proof.
    unfold tref_fref_from_fref. apply ani_if; [|apply ani_const].
    apply (ani_bind (fun l => get_fref_out sv pv l c _ _)); [apply ani_fref_out|intros b]. repeat ani_step.
  Qed.
  Lemma ani_ecc_check fp fa lo hi tc : ani (fun l => check_ecc_monotone ecc_of slope l c fp fa lo hi tc).
  Proof. unfold check_ecc_monotone. repeat ani_step. Qed.
  Lemma ani_from p a : ani (fun l => measure_from_extrema ecc_of vneg sv pv rfit slope l c p a).
  Proof.
    unfold measure_from_extrema. cbv zeta.
    repeat first [apply ani_curve | apply ani_tref | apply ani_ecc_check | ani_step].
  Qed.

  (** extrema lists on which the measurement stops with IndexError at once *)
  Definition unusable (p a : list nat) : Prop :=
    (exists e, gather (c_t c) p = Err e) \/ (exists e, gather (c_t c) a = Err e) \/ p = [] \/ a = [].
  Lemma from_unusable l p a : unusable p a -> forall s,
    run (measure_from_extrema ecc_of vneg sv pv rfit slope l c p a) s = (s, Err IndexError).
  Proof.
    intros U s. unfold measure_from_extrema. rewrite run_bind, run_lift.
    destruct (gather (c_t c) p) as [tp|e] eqn:Gp; [|apply gather_err in Gp; now subst].
    rewrite run_bind, run_lift.
    destruct (gather (c_t c) a) as [ta|e] eqn:Ga; [|apply gather_err in Ga; now subst].
    rewrite run_bind, run_lift.
    destruct (last_of tp) as [pl|e] eqn:Lp; [|apply last_of_err_index in Lp; now subst].
    rewrite run_bind, run_lift.
    destruct (last_of ta) as [al|e] eqn:La; [|apply last_of_err_index in La; now subst].
    exfalso. destruct U as [[e U]|[[e U]|[U|U]]].
    - congruence.
    - congruence.
    - subst p. cbn in Gp. inv_ok Gp. discriminate Lp.
    - subst a. cbn in Ga. inv_ok Ga. discriminate La.
  Qed.
  Lemma interleave_in (p : list nat) : forall a x, In x (interleave p a) -> In x p \/ In x a.
  Proof.
    induction p as [|y r IH]; intros a x H; cbn in H; [auto|].
    destruct H as [<-|H]; [left; now left|]. destruct a as [|z s].
    - left. now right.
    - destruct H as [<-|H]; [right; now left|]. apply IH in H. cbn. tauto.
  Qed.
  Lemma interleave_usable (b : bool) p a e :
    gather (c_t c) (if b then interleave p a else interleave a p) = Err e -> unusable p a.
  Proof.
    intros H. destruct (gather (c_t c) p) as [tp|ep] eqn:Gp; [|left; eauto].
    destruct (gather (c_t c) a) as [ta|ea] eqn:Ga; [|right; left; eauto].
    exfalso. assert (T : exists ts, gather (c_t c) (if b then interleave p a else interleave a p) = Ok ts).
    { apply gather_inv in Gp, Ga. apply gather_total. rewrite Forall_forall in *. intros x Hx.
      destruct b; apply interleave_in in Hx; destruct Hx; auto. }
    destruct T as [ts T]. congruence.
  Qed.
  Lemma alternate_tail l (b : bool) p a : quiet l ->
    let x := snd (let! tt_arr := lift (gather (c_t c) (if b then interleave p a else interleave a p)) in
      if existsb (fun d => Qlt_bool d 0) (qdiff tt_arr) then dbg "extrema do not alternate" l false else lret tt) in
    x = Ok tt \/ (x = Err IndexError /\ unusable p a).
  Proof.
    intros q x. unfold x.
    destruct (gather (c_t c) (if b then interleave p a else interleave a p)) as [ts|e] eqn:G.
    - left. unfold lbind, lift. cbn [snd fst]. destruct (existsb _ _); [now apply dbg_quiet|reflexivity].
    - right. split; [|eapply interleave_usable; eassumption]. apply gather_err in G. now subst.
  Qed.
  Lemma alternate_cases l p a : quiet l ->
    snd (check_alternate l (c_t c) p a) = Ok tt \/
    (snd (check_alternate l (c_t c) p a) = Err IndexError /\ unusable p a).
  Proof.
    intros q. unfold check_alternate. destruct (_ <? 1)%Z; [left; reflexivity|].
    destruct (_ <=? _)%Z; [left; now apply dbg_quiet|].
    destruct (length p =? length a) eqn:EL.
    - destruct (gather (c_t c) p) as [tp|ep] eqn:Gp.
      2:{ right. split; [|left; eauto]. apply gather_err in Gp. now subst. }
      destruct tp as [|x tp'].
      { right. split; [reflexivity|]. right; right; left. apply gather_length in Gp. now destruct p. }
      destruct (gather (c_t c) a) as [ta|ea] eqn:Ga.
      2:{ right. split; [|right; left; eauto]. apply gather_err in Ga. now subst. }
      destruct ta as [|y ta'].
      { right. split; [reflexivity|]. right; right; right. apply gather_length in Ga. now destruct a. }
      exact (alternate_tail l (Qlt_bool x y) p a q).
    - exact (alternate_tail l (length a <? length p) p a q).
  Qed.
  Lemma separation_cases l p a loc ph : quiet l -> gather (c_phase c) loc = Ok ph -> (loc = p \/ loc = a) ->
    snd (check_separation l (c_t c) (c_phase c) loc) = Ok tt \/
    (snd (check_separation l (c_t c) (c_phase c) loc) = Err IndexError /\ unusable p a).
  Proof.
    intros q G L. unfold check_separation. destruct (_ <? 1)%Z; [left; reflexivity|].
    rewrite G. unfold lbind at 1. cbn [lift snd].
    destruct (gather (c_t c) loc) as [ts|e] eqn:Gt.
    - left. unfold lbind at 1. cbn [lift snd].
      rewrite (lbind_val _ _ tt) by (destruct (existsb _ _); [now apply dbg_quiet|reflexivity]).
      rewrite (lbind_val _ _ tt) by (destruct (existsb _ _); [now apply dbg_quiet|reflexivity]).
      destruct (existsb _ _); [now apply dbg_quiet|reflexivity].
    - right. assert (e = IndexError) by now apply gather_err in Gt. subst e. split; [reflexivity|].
      destruct L as [-> | ->]; [left|right; left]; eauto.
  Qed.
  Lemma lni_dropped m n : lni (fun l => check_dropped l m n).
  Proof.
    intros l. unfold check_dropped. cbn [Z.ltb Z.compare]. split.
    - intros q. destruct (_ <? 1)%Z; [reflexivity|]. destruct (Qlt_bool _ _); [now apply dbg_quiet|reflexivity].
    - intros [] _. reflexivity.
  Qed.
  Lemma alternate_0 p a : snd (check_alternate 0 (c_t c) p a) = Ok tt.
  Proof. reflexivity. Qed.
  Lemma separation_0 loc : snd (check_separation 0 (c_t c) (c_phase c) loc) = Ok tt.
  Proof. reflexivity. Qed.
  Lemma ani_measure : ani (fun l => measure_ecc ecc_of vzero vneg find_extrema sv pv rfit slope l c).
  Proof.
    unfold measure_ecc. cbv zeta.
    apply (ani_bind (fun l => _) (fun l a => _)); [apply ani_const|intros peri].
    apply (ani_bind (fun l => _) (fun l a => _)); [apply ani_const|intros few_p].
    apply (ani_bind (fun l => _) (fun l a => _)); [apply ani_const|intros apo].
    apply (ani_bind (fun l => _) (fun l a => _)); [apply ani_const|intros few_a].
    apply ani_if; [apply ani_const|].
    apply (ani_bind (fun l => _) (fun l a => _)); [apply ani_const|intros _].
    (* the cleaned lists carry the fact that their phases can be read *)
    intros l s.
    assert (X : forall good, snd (get_good_extrema l (c_phase c) peri apo) = Ok good ->
      ani (fun l0 => _ <~ amod (set_locations (fst good) (snd good)) ;;
      _ <~ alog (check_dropped l0 (length peri) (length (fst good))) ;;
      _ <~ alog (check_dropped l0 (length apo) (length (snd good))) ;;
      _ <~ amod (set_locations (fst (if c_precessing c && c_filtered c then (tl (fst good), tl (snd good)) else good))
                               (snd (if c_precessing c && c_filtered c then (tl (fst good), tl (snd good)) else good))) ;;
      _ <~ alog (check_alternate l0 (c_t c) (fst (if c_precessing c && c_filtered c then (tl (fst good), tl (snd good)) else good))
                               (snd (if c_precessing c && c_filtered c then (tl (fst good), tl (snd good)) else good))) ;;
      _ <~ alog (check_separation l0 (c_t c) (c_phase c) (fst (if c_precessing c && c_filtered c then (tl (fst good), tl (snd good)) else good))) ;;
      _ <~ alog (check_separation l0 (c_t c) (c_phase c) (snd (if c_precessing c && c_filtered c then (tl (fst good), tl (snd good)) else good))) ;;
      measure_from_extrema ecc_of vneg sv pv rfit slope l0 c
        (fst (if c_precessing c && c_filtered c then (tl (fst good), tl (snd good)) else good))
        (snd (if c_precessing c && c_filtered c then (tl (fst good), tl (snd good)) else good)))).
    { intros [gp ga] Hg. apply good_in in Hg. destruct Hg as (Ip & Ia & [php Gp] & [pha Ga]).
      set (pa := if c_precessing c && c_filtered c then (tl (fst (gp, ga)), tl (snd (gp, ga))) else (gp, ga)).
      assert (TI : forall (l : list nat), incl (tl l) l) by (intros [|x r]; [apply incl_refl|apply incl_tl, incl_refl]).
      assert (Jp : incl (fst pa) gp) by (unfold pa; destruct (_ && _); [apply TI|apply incl_refl]).
      assert (Ja : incl (snd pa) ga) by (unfold pa; destruct (_ && _); [apply TI|apply incl_refl]).
      destruct (gather_incl _ _ _ _ (incl_tran Jp Ip) Gp) as [ph1 G1].
      destruct (gather_incl _ _ _ _ (incl_tran Ja Ia) Ga) as [ph2 G2].
      apply (ani_bind (fun l => _) (fun l a => _)); [apply ani_const|intros _].
      apply (ani_bind (fun l => _) (fun l a => _)); [apply ani_log, lni_dropped|intros _].
      apply (ani_bind (fun l => _) (fun l a => _)); [apply ani_log, lni_dropped|intros _].
      apply (ani_bind (fun l => _) (fun l a => _)); [apply ani_const|intros _].
      assert (B2 : unusable (fst pa) (snd pa) -> forall s, run (_ <~ alog (check_separation 0 (c_t c) (c_phase c) (snd pa)) ;;
         measure_from_extrema ecc_of vneg sv pv rfit slope 0 c (fst pa) (snd pa)) s = (s, Err IndexError)).
      { intros U s0. rewrite run_bind, run_log, separation_0. now apply from_unusable. }
      apply (gated (fun l => check_alternate l (c_t c) (fst pa) (snd pa))
        (fun l => _ <~ alog (check_separation l (c_t c) (c_phase c) (fst pa)) ;;
                  _ <~ alog (check_separation l (c_t c) (c_phase c) (snd pa)) ;;
                  measure_from_extrema ecc_of vneg sv pv rfit slope l c (fst pa) (snd pa))).
      { apply alternate_0. }
      { intros l1 q. destruct (alternate_cases l1 (fst pa) (snd pa) q) as [E|[E U]]; [now left|right].
        split; [exact E|]. intros s0. rewrite run_bind, run_log, separation_0. now apply B2. }
      apply (gated (fun l => check_separation l (c_t c) (c_phase c) (fst pa))
        (fun l => _ <~ alog (check_separation l (c_t c) (c_phase c) (snd pa)) ;;
                  measure_from_extrema ecc_of vneg sv pv rfit slope l c (fst pa) (snd pa))).
      { apply separation_0. }
      { intros l1 q. destruct (separation_cases l1 (fst pa) (snd pa) (fst pa) ph1 q G1) as [E|[E U]]; [now left|now left|right].
        split; [exact E|]. now apply B2. }
      apply (gated (fun l => check_separation l (c_t c) (c_phase c) (snd pa))
        (fun l => measure_from_extrema ecc_of vneg sv pv rfit slope l c (fst pa) (snd pa))).
      { apply separation_0. }
      { intros l1 q. destruct (separation_cases l1 (fst pa) (snd pa) (snd pa) ph2 q G2) as [E|[E U]]; [now right|now left|right].
        split; [exact E|]. now apply from_unusable. }
      apply ani_from. }
    destruct (lni_good (c_phase c) peri apo l) as [Q V0]. split.
    - intros q. rewrite !run_bind, !run_log, (Q q).
      destruct (snd (get_good_extrema 0 (c_phase c) peri apo)) as [good|e] eqn:E; [|reflexivity].
      exact (proj1 (X good (Q q) l s) q).
    - intros s' v H. rewrite run_bind, run_log in H. rewrite run_bind, run_log.
      destruct (snd (get_good_extrema l (c_phase c) peri apo)) as [good|e] eqn:E; [|discriminate H].
      rewrite (V0 _ eq_refl). exact (proj2 (X good eq_refl l s) s' v H).
  Qed.
End Level.
