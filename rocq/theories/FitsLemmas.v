(** Lemmas for FitsModel.v. *)
From Coq Require Import Sorting.Sorted.
From Verif Require Import Base BaseLemmas FitsModel FitsSpec.
Open Scope list_scope.
Open Scope nat_scope.

Lemma eval_all_ok {A B} (f : A -> res B) l : forall r, eval_all f l = Ok r -> Forall2 (fun a b => f a = Ok b) l r.
Proof.
  induction l as [|a l IH]; cbn; intros r H; [injection H as <-; constructor|].
  inv_bind H. inv_bind H. injection H as <-. constructor; auto.
Qed.
Lemma StronglySorted_map_add lo l : StronglySorted lt l -> StronglySorted lt (map (Nat.add lo) l).
Proof.
  induction 1 as [|a l S IH F]; cbn; constructor; auto.
  rewrite Forall_forall in *. intros x Hx. apply in_map_iff in Hx. destruct Hx as (y & <- & Hy). specialize (F y Hy). lia.
Qed.
Lemma StronglySorted_app l1 l2 : StronglySorted lt l1 -> StronglySorted lt l2 ->
  (forall x y, In x l1 -> In y l2 -> x < y) -> StronglySorted lt (l1 ++ l2).
Proof.
  intros S1 S2 C. induction S1 as [|a l S IH F]; cbn; [assumption|]. constructor.
  - apply IH. intros x y Hx Hy. apply C; cbn; auto.
  - apply Forall_app. split; [assumption|]. apply Forall_forall. intros y Hy. apply C; cbn; auto.
Qed.
Lemma StronglySorted_app_inv l1 l2 : StronglySorted lt (l1 ++ l2) ->
  StronglySorted lt l1 /\ StronglySorted lt l2 /\ forall x y, In x l1 -> In y l2 -> x < y.
Proof.
  induction l1 as [|a l IH]; cbn; intros S; [repeat split; auto; try constructor; contradiction|].
  apply StronglySorted_inv in S. destruct S as [S F]. destruct (IH S) as (A & B & C).
  apply Forall_app in F. destruct F as [F1 F2]. repeat split; auto; [constructor; auto|].
  intros x y [<-|Hx] Hy; [|auto]. rewrite Forall_forall in F2. auto.
Qed.
Lemma StronglySorted_filter_pairs {B} (f : nat * B -> bool) l : StronglySorted lt (map fst l) -> StronglySorted lt (map fst (filter f l)).
Proof.
  induction l as [|a l IH]; cbn; intros S; [constructor|].
  apply StronglySorted_inv in S. destruct S as [S F]. destruct (f a); [|auto]. cbn. constructor; [auto|].
  rewrite Forall_forall in *. intros x Hx. apply F. apply in_map_iff in Hx. destruct Hx as (y & <- & Hy).
  apply filter_In in Hy. apply in_map. tauto.
Qed.
Lemma combine_fst {A B} (l : list A) (r : list B) : length l = length r -> map fst (combine l r) = l.
Proof. revert r. induction l as [|a l IH]; intros [|b r] H; cbn in *; try lia; f_equal; auto. Qed.
Lemma combine_snd {A B} (l : list A) (r : list B) : length l = length r -> map snd (combine l r) = r.
Proof. revert r. induction l as [|a l IH]; intros [|b r] H; cbn in *; try lia; f_equal; auto. Qed.
Lemma Forall2_same_length {A B} (P : A -> B -> Prop) l r : Forall2 P l r -> length l = length r.
Proof. induction 1; cbn; congruence. Qed.
Lemma Forall2_skipn {A B} (P : A -> B -> Prop) l r n : Forall2 P l r -> Forall2 P (skipn n l) (skipn n r).
Proof. intros F. revert n. induction F; intros [|n]; cbn; auto. Qed.
Lemma Forall2_filter {A B} (P : A -> B -> Prop) (f : A * B -> bool) l r : Forall2 P l r ->
  Forall2 P (map fst (filter f (combine l r))) (map snd (filter f (combine l r))).
Proof. intros F. induction F; cbn; [constructor|]. destruct (f (x, y)); cbn; auto. Qed.
Lemma Forall2_nth {A B} (P : A -> B -> Prop) l r i a b : Forall2 P l r -> nth_error l i = Some a -> nth_error r i = Some b -> P a b.
Proof. intros F. revert i. induction F; intros [|i] Ha Hb; cbn in *; try discriminate; [congruence|eauto]. Qed.
Lemma Forall2_gather {A B} (P : A -> B -> Prop) l r idx : Forall2 P l r -> forall x y, gather l idx = Ok x -> gather r idx = Ok y -> Forall2 P x y.
Proof.
  intros F. induction idx as [|i idx IH]; cbn; intros x y Hx Hy.
  - injection Hx as <-. injection Hy as <-. constructor.
  - inv_bind Hx. inv_bind Hx. inv_bind Hy. inv_bind Hy. injection Hx as <-. injection Hy as <-.
    apply get_ok in E, E1. constructor; [eapply Forall2_nth; eauto|eauto].
Qed.
Lemma gather_seq {A} (l : list A) n : forall k r, gather l (seq k n) = Ok r -> r = firstn n (skipn k l).
Proof.
  induction n as [|n IH]; cbn; intros k r H; [now injection H as <-|].
  inv_bind H. inv_bind H. injection H as <-. apply get_ok in E. apply IH in E0. subst.
  clear IH. revert l E. induction k as [|k IH]; intros [|b l] E; cbn in *; try discriminate.
  - now injection E as <-.
  - exact (IH l E).
Qed.
Lemma filter_nonempty {A} (f : A -> bool) l : 1 <= length (filter f l) -> exists x, In x l /\ f x = true.
Proof.
  destruct (filter f l) as [|x r] eqn:E; cbn; [lia|]. intros _. exists x. apply filter_In. rewrite E. now left.
Qed.

Section Facts.
  Context (env : Q -> params -> Q -> res Q)
          (curve_fit : Q -> list Q -> list Q -> params -> params * params -> res params)
          (find_peaks : list Q -> Z -> Q -> res (list nat))
          (parabola : list Q -> list Q -> res (Q * Q))
          (cubic : list Q -> list Q -> Q -> res Q).
  Notation near_step := (near_step env curve_fit find_peaks parabola cubic).
  Notation near_loop := (near_loop env curve_fit find_peaks parabola cubic).
  Notation find_near := (find_near env curve_fit find_peaks parabola cubic).
  Notation outer_step := (outer_step env curve_fit find_peaks parabola cubic).
  Notation outer_loop := (outer_loop env curve_fit find_peaks parabola cubic).
  Notation search := (search env curve_fit find_peaks parabola cubic).
  Notation refine_one := (refine_one env parabola cubic).

  Notation stored := (stored env parabola cubic).

  (** ** Termination *)
  Lemma near_step_it d t0 b sign before after dist prom s x :
    near_step d t0 b sign before after dist prom s = Ok x ->
    match x with inl _ => True | inr s' => n_it s' = S (n_it s) /\ S (n_it s) <= 20 end.
  Proof.
    unfold FitsModel.near_step. intros H.
    do 7 (apply bind_ok in H; destruct H as (? & _ & H)).
    apply bind_ok in H; destruct H as (K & _ & H). apply bind_ok in H; destruct H as (info & _ & H).
    match type of H with (if ?c then _ else _) = _ => destruct c eqn:Ec end.
    { apply Ok_inj in H. now subst. }
    apply orb_false_iff in Ec. destruct Ec as [_ Ec]. apply Nat.ltb_ge in Ec.
    apply bind_ok in H; destruct H as ([[[lo hi] ref] nr] & _ & H).
    match type of H with (if ?c then _ else _) = _ => destruct c end.
    { apply Ok_inj in H. subst. split; [reflexivity|exact Ec]. }
    apply bind_ok in H; destruct H as (delta & _ & H).
    repeat match type of H with (if ?c then _ else _) = _ => destruct c end; try (apply Ok_inj in H; now subst).
    apply bind_ok in H; destruct H as (p & _ & H). apply Ok_inj in H. subst. split; [reflexivity|exact Ec].
  Qed.
  Lemma near_fuel d t0 b sign before after dist prom more : forall fuel s,
    n_it s <= 20 -> 21 <= n_it s + fuel ->
    near_loop d t0 b sign (fuel + more) before after dist prom s = near_loop d t0 b sign fuel before after dist prom s.
  Proof.
    induction fuel as [|fuel IH]; intros s H1 H2; [lia|]. cbn.
    destruct (near_step d t0 b sign before after dist prom s) as [[r|s']|e] eqn:E; cbn; try reflexivity.
    apply near_step_it in E. apply IH; lia.
  Qed.
  Lemma find_near_fuel d t0 b sign before after ref K p more :
    find_near d t0 b sign (21 + more) before after ref K p = find_near d t0 b sign 21 before after ref K p.
  Proof.
    unfold FitsModel.find_near, near_start. destruct (get (f_phase d) ref) as [x|e]; cbn [bind]; [|reflexivity].
    match goal with |- bind ?c _ = _ => destruct c as [w|e] end; cbn [bind]; [|reflexivity].
    apply near_fuel; cbn [n_it]; lia.
  Qed.
  Lemma outer_step_fuel d t0 b sign s more : outer_step d t0 b sign (21 + more) s = outer_step d t0 b sign 21 s.
  Proof. unfold FitsModel.outer_step. now rewrite find_near_fuel. Qed.
  Lemma outer_loop_inner d t0 b sign more : forall fuel s,
    outer_loop d t0 b sign fuel (21 + more) s = outer_loop d t0 b sign fuel 21 s.
  Proof.
    induction fuel as [|fuel IH]; intros s; [reflexivity|]. cbn [FitsModel.outer_loop]. rewrite outer_step_fuel.
    destruct (outer_step d t0 b sign 21 s) as [[r|s']|e]; cbn; auto.
  Qed.
  Lemma outer_step_count d t0 b sign inner s x : outer_step d t0 b sign inner s = Ok x ->
    match x with inl _ => True | inr s' => o_count s' = (o_count s + 1)%Z /\ (o_count s' <= 10000)%Z end.
  Proof.
    unfold FitsModel.outer_step. intros H.
    apply bind_ok in H; destruct H as (f & _ & H). apply bind_ok in H; destruct H as (te & _ & H).
    apply bind_ok in H; destruct H as ([[[ext inf] extra] ei] & _ & H).
    destruct te; [apply Ok_inj in H; now subst|].
    apply bind_ok in H; destruct H as (a & _ & H). apply bind_ok in H; destruct H as (c & _ & H).
    destruct (10000 <? o_count s + 1)%Z eqn:E; [discriminate|]. apply Ok_inj in H. subst. cbn.
    apply Z.ltb_ge in E. lia.
  Qed.
  Lemma outer_fuel d t0 b sign inner more : forall fuel s,
    (o_count s <= 10000)%Z -> (10001 <= o_count s + Z.of_nat fuel)%Z ->
    outer_loop d t0 b sign (fuel + more) inner s = outer_loop d t0 b sign fuel inner s.
  Proof.
    induction fuel as [|fuel IH]; intros s H1 H2; [lia|]. cbn [FitsModel.outer_loop plus].
    destruct (outer_step d t0 b sign inner s) as [[r|s']|e] eqn:E; cbn [bind]; try reflexivity.
    apply outer_step_count in E. apply IH; lia.
  Qed.
  Lemma search_fuel d sign fuel more more' : (10001 <= Z.of_nat fuel)%Z ->
    search (fuel + more) (21 + more') d sign = search fuel 21 d sign.
  Proof.
    intros F. unfold FitsModel.search.
    repeat match goal with
    | |- bind ?c _ = _ => destruct c; cbn [bind]; [|reflexivity]
    | |- (if ?c then _ else _) = _ => destruct c; [reflexivity|]
    end.
    rewrite outer_loop_inner. apply outer_fuel; cbn [o_count]; lia.
  Qed.

  (** ** Where the extrema lie *)
  Lemma residual_ok d t0 lo hi p r : residual env d t0 lo hi p = Ok r -> detrended env d t0 p lo hi r.
  Proof.
    unfold residual, envelope. intros H. apply bind_ok in H; destruct H as (fit & E & H). apply Ok_inj in H. subst r.
    apply bind_ok in E; destruct E as (m & Em & E). destruct (Qlt_bool (q_T p) m) eqn:Et; [discriminate|].
    apply qmax_ok in Em. apply Qlt_bool_false in Et. split; [|exists fit; split; [now apply eval_all_ok|reflexivity]].
    destruct Em as [_ Em]. apply Forall_forall. intros t Ht. eapply Qle_trans; [now apply Em|exact Et].
  Qed.
  Lemma detrended_length d t0 p lo hi r : detrended env d t0 p lo hi r -> length r <= length (f_data d) - lo.
  Proof. intros [_ (fit & _ & ->)]. rewrite map2_length, slice_length. lia. Qed.
  Lemma spread_ok l a : spread l = Ok a -> exists top bottom, In top l /\ In bottom l /\ Forall (fun y => bottom <= y /\ y <= top)%Q l /\
    a = (top - bottom)%Q.
  Proof.
    unfold spread. intros H. apply bind_ok in H; destruct H as (x & Ex & H). apply bind_ok in H; destruct H as (y & Ey & H).
    apply Ok_inj in H. apply qmax_ok in Ex. apply qmin_ok in Ey. exists x, y. destruct Ex as [Ix Fx], Ey as [Iy Fy].
    repeat split; auto. apply Forall_forall. intros z Hz. split; auto.
  Qed.
  Lemma zget_nat {A} (l : list A) n : 1 <= n -> zget l (Z.of_nat n - 1) = get l (n - 1).
  Proof.
    intros H. unfold zget. replace (Z.of_nat n - 1)%Z with (Z.of_nat (n - 1)) by lia.
    destruct (0 <=? Z.of_nat (n - 1))%Z eqn:E; [now rewrite Nat2Z.id|]. apply Z.leb_gt in E. lia.
  Qed.
  Lemma asked_ok d t0 lo hi p w : distance_and_prominence env d t0 lo hi p = Ok w -> asked env d t0 (fst w) (snd w).
  Proof.
    unfold distance_and_prominence. intros H.
    apply bind_ok in H; destruct H as (step & Es & H). apply qmax_ok in Es. destruct Es as [Is Fs].
    assert (L : 2 <= hi).
    { assert (Lq : 1 <= length (qdiff (slice (f_t d) lo hi))) by (destruct (qdiff (slice (f_t d) lo hi)); cbn in *; [contradiction|lia]).
      rewrite qdiff_length, slice_length in Lq. lia. }
    rewrite !zget_nat in H by lia.
    apply bind_ok in H; destruct H as (tb & Etb & H). apply bind_ok in H; destruct H as (ta & Eta & H).
    apply bind_ok in H; destruct H as (pb & Epb & H). apply bind_ok in H; destruct H as (pa & Epa & H).
    destruct (Qeq_bool (pb - pa) 0); [discriminate|]. destruct (Qeq_bool step 0); [discriminate|].
    apply bind_ok in H; destruct H as (r & Er & H). apply bind_ok in H; destruct H as (amp & Ea & H).
    apply Ok_inj in H. subst w. cbn [fst snd].
    apply residual_ok in Er. apply spread_ok in Ea. destruct Ea as (top & bottom & It & Ib & F & ->).
    apply get_ok in Etb, Eta, Epb, Epa.
    exists lo, hi, p, r, top, bottom, step, ta, tb, pa, pb. repeat split; auto; try apply Er. now apply Forall_forall.
  Qed.

  (** What a local search returns. *)
  Definition good (d : fits) (t0 sign : Q) (f : found) : Prop :=
    StronglySorted lt (r_idx f) /\ Forall (extremum env find_peaks d t0 sign) (r_idx f) /\ Forall2 (stored d t0) (r_idx f) (r_info f).

  Lemma sampled d idx ts ys phs : gather (f_t d) idx = Ok ts -> gather (f_data d) idx = Ok ys -> gather (f_phase d) idx = Ok phs ->
    Forall2 (sample d) idx (combine (combine ts ys) phs).
  Proof.
    revert ts ys phs. induction idx as [|i idx IH]; cbn; intros ts ys phs H1 H2 H3.
    - injection H1 as <-. injection H2 as <-. injection H3 as <-. constructor.
    - inv_bind H1. inv_bind H1. inv_bind H2. inv_bind H2. inv_bind H3. inv_bind H3.
      injection H1 as <-. injection H2 as <-. injection H3 as <-. apply get_ok in E, E1, E3. cbn. constructor; [|eauto].
      repeat split; cbn; assumption.
  Qed.
  Lemma envelope_ok t0 p ts r : envelope env t0 p ts = Ok r -> Forall2 (fun t y => env t0 p t = Ok y) ts r.
  Proof.
    unfold envelope. intros H. apply bind_ok in H; destruct H as (m & _ & H). destruct (Qlt_bool (q_T p) m); [discriminate|].
    now apply eval_all_ok.
  Qed.
  Lemma gathered {A} (l : list A) idx : forall r, gather l idx = Ok r -> Forall2 (fun i a => nth_error l i = Some a) idx r.
  Proof.
    induction idx as [|i idx IH]; cbn; intros r H; [injection H as <-; constructor|].
    inv_bind H. inv_bind H. injection H as <-. apply get_ok in E. constructor; auto.
  Qed.
  Lemma refine_ok d t0 p s x : refine_one d t0 p s = Ok x -> improved env parabola cubic d t0 p s x.
  Proof.
    unfold FitsModel.refine_one. destruct s as [[t y] ph]. intros H. destruct (Qeq_bool y 0); [discriminate|].
    match type of H with context [where_idx ?c ?l] => set (near := where_idx c l) in * end.
    exists near. split; [apply where_idx_sorted|]. cbn [fst snd]. split.
    { intros i. unfold near. rewrite where_idx_in. split; intros (a & Ha & Hb); exists a; (split; [exact Ha|]).
      - now apply Qlt_bool_iff.
      - now apply Qlt_bool_iff. }
    destruct (7 <=? length near) eqn:El.
    - apply Nat.leb_le in El. split; [intros; lia|]. intros _.
      apply bind_ok in H; destruct H as (ts & Et & H). apply bind_ok in H; destruct H as (ys & Ey & H).
      apply bind_ok in H; destruct H as (fit & Ef & H). apply bind_ok in H; destruct H as ([v top] & Ev & H). cbn [fst snd] in H.
      apply bind_ok in H; destruct H as (f1 & Ef1 & H). apply bind_ok in H; destruct H as (e & Ee & H).
      apply bind_ok in H; destruct H as (phs & Eh & H). apply bind_ok in H; destruct H as (c & Ec & H). apply Ok_inj in H. subst x.
      apply envelope_ok in Ef, Ef1. inversion Ef1 as [|a b l r Hab Hlr]; subst. inversion Hlr; subst. apply get_ok in Ee. cbn in Ee. injection Ee as ->.
      exists ts, ys, phs, fit, v, top, e, c. repeat split; auto using gathered.
    - apply Nat.leb_gt in El. split; [|intros; lia]. intros _. apply Ok_inj in H. now subst.
  Qed.
  Lemma refined_points d t0 p idx pts info : Forall2 (sample d) idx pts ->
    (if f_refine d then eval_all (refine_one d t0 p) pts else Ok pts) = Ok info -> Forall2 (stored d t0) idx info.
  Proof.
    unfold stored. destruct (f_refine d).
    - intros F H. apply eval_all_ok in H. revert info H. induction F as [|i s idx pts S F IH]; intros info H; inversion H; subst; constructor; eauto using refine_ok.
    - intros F H. apply Ok_inj in H. subst. induction F; constructor; eauto.
  Qed.

  Lemma move_left_ref d before idx lo ref K nleft nright lo' ref' nright' :
    StronglySorted lt idx -> nright = length (filter (fun i => ref <=? i) idx) ->
    move_left d before idx lo ref K nleft nright = Ok (lo', ref', nright') -> ref <= ref'.
  Proof.
    intros S N. unfold move_left. intros H.
    destruct (before <? nleft).
    { apply bind_ok in H; destruct H as (a & _ & H). apply bind_ok in H; destruct H as (c & _ & H). apply Ok_inj in H.
      apply (f_equal (fun x => snd (fst x))) in H. cbn [fst snd] in H. subst ref'. lia. }
    destruct (nleft <? before); [|apply Ok_inj in H; injection H as _ <- _; lia].
    destruct (lo =? 0).
    - destruct (2 <=? nright) eqn:E2; [|apply Ok_inj in H; injection H as _ <- _; lia].
      apply Nat.leb_le in E2. apply bind_ok in H; destruct H as (a & Ea & H). apply bind_ok in H; destruct H as (c & Ec & H).
      apply Ok_inj in H. apply (f_equal (fun x => snd (fst x))) in H. cbn [fst snd] in H. subst ref'. apply get_ok in Ea, Ec.
      assert (A : ref <= a).
      { unfold argmax_bool in Ea. destruct (find_index (fun i => ref <=? i) idx) as [j|] eqn:Ej.
        - apply find_index_some in Ej. destruct Ej as [(x & Ex & Hx) _]. rewrite Ex in Ea. injection Ea as <-. now apply Nat.leb_le.
        - exfalso. destruct (filter_nonempty (fun i => ref <=? i) idx) as (x & Ix & Hx); [lia|].
          apply In_nth_error in Ix. destruct Ix as [k Hk]. rewrite (find_index_none _ _ Ej _ _ Hk) in Hx. discriminate. }
      assert (C : a < c) by (eapply (SSorted_nth idx S); [|exact Ea|exact Ec]; lia).
      apply Nat.div_le_lower_bound; lia.
    - apply bind_ok in H; destruct H as (a & _ & H). apply Ok_inj in H. injection H as _ <- _. lia.
  Qed.

  Lemma near_step_good d t0 b sign before after dist prom s x : peaks_contract find_peaks -> asked env d t0 dist prom ->
    near_step d t0 b sign before after dist prom s = Ok x ->
    match x with inl f => good d t0 sign f /\ n_ref s <= r_ref f | inr s' => n_ref s <= n_ref s' end.
  Proof.
    intros C A. unfold FitsModel.near_step. intros H.
    apply bind_ok in H; destruct H as (r & Er & H). apply bind_ok in H; destruct H as (amp & _ & H).
    apply bind_ok in H; destruct H as (peaks & Ep & H). cbn zeta in H.
    set (idx := map (Nat.add (n_lo s)) peaks) in *.
    assert (Sd : StronglySorted lt idx) by (apply StronglySorted_map_add; eapply C; exact Ep).
    apply bind_ok in H; destruct H as (ts & Et & H). apply bind_ok in H; destruct H as (ys & Ey & H).
    apply bind_ok in H; destruct H as (phs & Eh & H). apply bind_ok in H; destruct H as (rs & _ & H).
    apply bind_ok in H; destruct H as (K & _ & H). apply bind_ok in H; destruct H as (info & Ei & H).
    assert (G : forall ref, good d t0 sign {| r_idx := idx; r_p := n_p s; r_K := K; r_ref := ref; r_info := info |}).
    { intros ref. split; [exact Sd|]. split; cbn [r_idx r_info].
      - apply Forall_forall. intros i Hi. apply in_map_iff in Hi. destruct Hi as (k & <- & Hk).
        exists (n_lo s), (n_hi s), (n_p s), r, dist, prom, peaks, k. repeat split; auto; apply residual_ok in Er; apply Er.
      - eapply refined_points; [eapply sampled; eassumption|exact Ei]. }
    clear Ei.
    match type of H with (if ?c then _ else _) = _ => destruct c end.
    { apply Ok_inj in H. subst x. split; [apply G|reflexivity]. }
    apply bind_ok in H; destruct H as ([[[lo hi] ref] nr] & Eu & H).
    assert (R : n_ref s <= ref).
    { match type of Eu with (if ?c then _ else _) = _ => destruct c end; [apply Ok_inj in Eu; injection Eu as _ _ <- _; reflexivity|].
      apply bind_ok in Eu; destruct Eu as ([[lo1 ref1] nr1] & El & Eu). apply bind_ok in Eu; destruct Eu as (hi1 & _ & Eu).
      apply Ok_inj in Eu. injection Eu as _ _ <- _. eapply move_left_ref; [exact Sd|reflexivity|exact El]. }
    clear Eu.
    match type of H with (if ?c then _ else _) = _ => destruct c end.
    { apply Ok_inj in H. subst x. exact R. }
    apply bind_ok in H; destruct H as (delta & _ & H).
    do 3 (match type of H with (if ?c then _ else _) = _ => destruct c end; [apply Ok_inj in H; subst x; split; [apply G|exact R]|]).
    apply bind_ok in H; destruct H as (p & _ & H). apply Ok_inj in H. subst x. exact R.
  Qed.
  Lemma near_loop_good d t0 b sign before after dist prom : peaks_contract find_peaks -> asked env d t0 dist prom ->
    forall fuel s f, near_loop d t0 b sign fuel before after dist prom s = Ok f -> good d t0 sign f /\ n_ref s <= r_ref f.
  Proof.
    intros C A. induction fuel as [|fuel IH]; cbn; intros s f H; [discriminate|].
    apply bind_ok in H; destruct H as (x & Ex & H). apply near_step_good in Ex; [|assumption..].
    destruct x as [f'|s']; [apply Ok_inj in H; now subst|]. apply IH in H. split; [tauto|]. lia.
  Qed.
  Lemma find_near_good d t0 b sign fuel before after ref K p f : peaks_contract find_peaks ->
    find_near d t0 b sign fuel before after ref K p = Ok f -> good d t0 sign f /\ ref <= r_ref f.
  Proof.
    intros C. unfold FitsModel.find_near, near_start. intros H. apply bind_ok in H; destruct H as (s & Es & H).
    apply bind_ok in H; destruct H as (w & Ew & H). apply bind_ok in Es; destruct Es as (x & _ & Es). apply Ok_inj in Es. subst s.
    apply asked_ok in Ew. apply near_loop_good in H; [|assumption..]. exact H.
  Qed.

  Definition listed (d : fits) (t0 sign : Q) (l : list nat) (info : list point) : Prop :=
    StronglySorted lt l /\ Forall (extremum env find_peaks d t0 sign) l /\ Forall2 (stored d t0) l info.
  Lemma listed_nil d t0 sign : listed d t0 sign [] [].
  Proof. repeat split; constructor. Qed.
  Lemma listed_app d t0 sign l1 i1 l2 i2 : listed d t0 sign l1 i1 -> listed d t0 sign l2 i2 ->
    (forall x y, In x l1 -> In y l2 -> x < y) -> listed d t0 sign (l1 ++ l2) (i1 ++ i2).
  Proof.
    intros (S1 & F1 & G1) (S2 & F2 & G2) C. split; [now apply StronglySorted_app|].
    split; [now apply Forall_app|now apply Forall2_app].
  Qed.
  Lemma listed_skipn d t0 sign l i n : listed d t0 sign l i -> listed d t0 sign (skipn n l) (skipn n i).
  Proof.
    intros (S & F & G). split; [|split; [|now apply Forall2_skipn]].
    - rewrite <- (firstn_skipn n l) in S. now apply StronglySorted_app_inv in S.
    - rewrite <- (firstn_skipn n l) in F. now apply Forall_app in F.
  Qed.
  Lemma listed_filter d t0 sign f l i : listed d t0 sign l i ->
    listed d t0 sign (map fst (filter f (combine l i))) (map snd (filter f (combine l i))).
  Proof.
    intros (S & F & G). assert (L : length l = length i) by (eapply Forall2_same_length; exact G).
    split; [|split; [|now apply Forall2_filter]].
    - apply StronglySorted_filter_pairs. now rewrite combine_fst.
    - rewrite Forall_forall in *. intros x Hx. apply F. apply in_map_iff in Hx. destruct Hx as ([x' y] & <- & Hx).
      apply filter_In in Hx. destruct Hx as [Hx _]. now apply in_combine_l in Hx.
  Qed.
  Lemma listed_one d t0 sign l i k x y : listed d t0 sign l i -> nth_error l k = Some x -> nth_error i k = Some y ->
    listed d t0 sign [x] [y].
  Proof.
    intros (S & F & G) Hx Hy. repeat split; repeat constructor.
    - rewrite Forall_forall in F. eapply F, nth_error_In, Hx.
    - eapply Forall2_nth; eauto.
  Qed.
  Lemma listed_firstn d t0 sign l i n a c : listed d t0 sign l i -> gather l (seq 0 n) = Ok a -> gather i (seq 0 n) = Ok c ->
    listed d t0 sign a c /\ a = firstn n l.
  Proof.
    intros (S & F & G) Ha Hc. assert (E := gather_seq _ _ _ _ Ha). cbn [skipn] in E. split; [|exact E]. split; [|split].
    - subst a. rewrite <- (firstn_skipn n l) in S. now apply StronglySorted_app_inv in S.
    - subst a. rewrite <- (firstn_skipn n l) in F. now apply Forall_app in F.
    - eapply Forall2_gather; eauto.
  Qed.

  Definition outer_inv (d : fits) (t0 sign : Q) (s : outer) : Prop :=
    listed d t0 sign (o_extrema s) (o_info s) /\ listed d t0 sign (o_extra s) (o_extra_info s) /\
    (forall x, In x (o_extrema s) -> x <= o_ref s) /\
    (forall x y, In x (o_extrema s) -> In y (o_extra s) -> x < y) /\
    (0 <= o_count s)%Z /\ (o_count s = 0%Z -> o_extrema s = [] /\ o_info s = [] /\ o_extra s = []).

  Lemma skipn_nth {A} (l : list A) k x : nth_error l k = Some x -> skipn k l = x :: skipn (k + 1) l.
  Proof.
    revert l. induction k as [|k IH]; intros [|a l] H; cbn in *; try discriminate; [now injection H as <-|auto].
  Qed.

  Lemma outer_step_inv d t0 b sign inner s out : peaks_contract find_peaks -> outer_inv d t0 sign s ->
    outer_step d t0 b sign inner s = Ok out ->
    match out with inl r => listed d t0 sign (fst r) (snd r) | inr s' => outer_inv d t0 sign s' end.
  Proof.
    intros C (I1 & I2 & I3 & I4 & I5 & I6). unfold FitsModel.outer_step. intros H.
    apply bind_ok in H; destruct H as (f & Ef & H). apply find_near_good in Ef; [|exact C]. destruct Ef as [G R].
    assert (Sd := proj1 G). change (listed d t0 sign (r_idx f) (r_info f)) in G. cbn zeta in H.
    set (N := f_orbits d) in *. set (idx := r_idx f) in *. set (info := r_info f) in *.
    apply bind_ok in H; destruct H as (te & Ete & H). apply bind_ok in H; destruct H as ([[[ext inf] extra] ei] & Eu & H).
    assert (P : listed d t0 sign ext inf /\
                (te = false -> listed d t0 sign extra ei /\ (forall x y, In x ext -> In y extra -> x < y) /\
                               exists m, nth_error idx N = Some m /\ forall x, In x ext -> x <= m)).
    { destruct (2 * N - 1 <=? length idx) eqn:El.
      - apply bind_ok in Eu; destruct Eu as ([fa fb] & E1 & Eu). cbn [fst snd] in Eu.
        apply bind_ok in Eu; destruct Eu as (m & Em & Eu). apply get_ok in Em.
        assert (B : listed d t0 sign (o_extrema s ++ fa) (o_info s ++ fb) /\
                    (forall x y, In x (o_extrema s ++ fa) -> In y (skipn N idx) -> r_ref f < y -> x < y) /\
                    (te = false -> forall x, In x (o_extrema s ++ fa) -> x <= m) /\
                    (forall x y, In x (o_extrema s ++ fa) -> In y (o_extra s) -> x < y)).
        { destruct (o_count s + 1 =? 1)%Z eqn:Ec.
          - apply Z.eqb_eq in Ec. destruct I6 as (-> & -> & ->); [lia|]. cbn [app].
            apply bind_ok in E1; destruct E1 as (a & Ea & E1). apply bind_ok in E1; destruct E1 as (c & Ec' & E1).
            apply Ok_inj in E1. injection E1 as -> ->.
            destruct (listed_firstn _ _ _ _ _ _ _ _ G Ea Ec') as [L ->]. split; [exact L|].
            rewrite <- (firstn_skipn N idx) in Sd. apply StronglySorted_app_inv in Sd. destruct Sd as (_ & _ & Sd).
            split; [intros; now apply Sd|]. split; [|intros ? ? _ []].
            intros _ x Hx. apply Nat.lt_le_incl, Sd; [exact Hx|]. rewrite (skipn_nth _ _ _ Em). now left.
          - apply Ok_inj in E1. injection E1 as <- <-. rewrite !app_nil_r. split; [exact I1|].
            split; [intros x y Hx _ Hy; specialize (I3 x Hx); lia|]. split; [|exact I4].
            intros -> x Hx. specialize (I3 x Hx).
            destruct (length idx <? 2 * N + 1); [discriminate|]. apply bind_ok in Ete; destruct Ete as (m' & Em' & Ete).
            apply get_ok in Em'. assert (m' = m) by congruence. subst m'. apply Ok_inj in Ete. apply Nat.ltb_ge in Ete. lia. }
        destruct B as (B1 & B2 & B3 & B4).
        assert (Sk : StronglySorted lt (skipn N idx)) by apply (listed_skipn _ _ _ _ _ N G).
        rewrite (skipn_nth _ _ _ Em) in Sk, B2.
        apply bind_ok in Eu; destruct Eu as ([[[e1 i1] x1] xi1] & Ev & Eu).
        assert (V : listed d t0 sign e1 i1 /\ listed d t0 sign x1 xi1 /\ (forall x y, In x e1 -> In y x1 -> x < y) /\
                    (forall x y, In x e1 -> In y (skipn (N + 1) idx) -> r_ref f < y -> x < y) /\
                    (te = false -> forall x, In x e1 -> x <= m)).
        { destruct (r_ref f <? m) eqn:Er.
          - apply Nat.ltb_lt in Er. apply bind_ok in Ev; destruct Ev as (y & Ey & Ev). apply get_ok in Ey. apply Ok_inj in Ev.
            injection Ev as <- <- <- <-.
            assert (Lt : forall x, In x (o_extrema s ++ fa) -> x < m) by (intros x Hx; apply B2; [exact Hx|now left|exact Er]).
            assert (Lm : forall y, In y (skipn (N + 1) idx) -> m < y).
            { apply StronglySorted_inv in Sk. destruct Sk as [_ Sk]. now rewrite Forall_forall in Sk. }
            assert (Al : forall x, In x ((o_extrema s ++ fa) ++ [m]) -> x <= m).
            { intros x Hx. apply in_app_iff in Hx. destruct Hx as [Hx|[<-|[]]]; [apply Nat.lt_le_incl; auto|reflexivity]. }
            split; [|split; [|split; [|split]]].
            + apply listed_app; [exact B1|exact (listed_one _ _ _ _ _ _ _ _ G Em Ey)|]. intros x z Hx [<-|[]]. auto.
            + now apply listed_skipn.
            + intros x z Hx Hz. specialize (Al x Hx). specialize (Lm z Hz). lia.
            + intros x z Hx Hz _. specialize (Al x Hx). specialize (Lm z Hz). lia.
            + intros _. exact Al.
          - apply Ok_inj in Ev. injection Ev as <- <- <- <-. split; [exact B1|]. split; [exact I2|]. split; [exact B4|].
            split; [|exact B3]. intros x y Hx Hy. apply B2; [exact Hx|now right]. }
        destruct V as (V1 & V2 & V3 & V4 & V5). destruct te.
        + apply Ok_inj in Eu. injection Eu as <- <- <- <-. split; [|discriminate]. apply listed_app; [exact V1| |].
          * apply listed_filter, listed_skipn, G.
          * intros x y Hx Hy. apply in_map_iff in Hy. destruct Hy as ([y' z] & <- & Hy). apply filter_In in Hy.
            destruct Hy as [Hy1 Hy2]. cbn [fst] in *. apply Nat.ltb_lt in Hy2. apply in_combine_l in Hy1. auto.
        + apply Ok_inj in Eu. injection Eu as <- <- <- <-. split; [exact V1|]. intros _. split; [exact V2|]. split; [exact V3|].
          exists m. auto.
      - destruct te; [|discriminate]. apply Ok_inj in Eu. injection Eu as <- <- <- <-. split; [|discriminate].
        now apply listed_app. }
    destruct P as [P1 P2]. destruct te; [apply Ok_inj in H; now subst out|].
    destruct (P2 eq_refl) as (P3 & P4 & m & Em & P5).
    apply bind_ok in H; destruct H as (a & Ea & H). apply bind_ok in H; destruct H as (c & Ec & H).
    apply get_ok in Ea, Ec. assert (a = m) by congruence. subst a.
    destruct (10000 <? o_count s + 1)%Z; [discriminate|]. apply Ok_inj in H. subst out.
    assert (Lt : m < c) by (eapply (SSorted_nth idx Sd); [|exact Ea|exact Ec]; lia).
    split; [exact P1|]. split; [exact P3|]. split; [|split; [exact P4|cbn [o_count]; split; [lia|lia]]].
    cbn [o_extrema o_ref]. intros x Hx. specialize (P5 x Hx). transitivity m; [exact P5|]. apply Nat.div_le_lower_bound; lia.
  Qed.
  Lemma outer_loop_listed d t0 b sign inner : peaks_contract find_peaks -> forall fuel s r, outer_inv d t0 sign s ->
    outer_loop d t0 b sign fuel inner s = Ok r -> listed d t0 sign (fst r) (snd r).
  Proof.
    intros C. induction fuel as [|fuel IH]; cbn; intros s r I H; [discriminate|].
    apply bind_ok in H; destruct H as (x & Ex & H). apply outer_step_inv in Ex; [|assumption..].
    destruct x as [r'|s']; [apply Ok_inj in H; now subst|eauto].
  Qed.
  Lemma search_listed d sign fuel inner r : peaks_contract find_peaks -> search fuel inner d sign = Ok r ->
    exists t0, centre d t0 /\ listed d t0 sign (fst r) (snd r).
  Proof.
    intros C. unfold FitsModel.search. intros H. apply bind_ok in H; destruct H as (ph0 & _ & H). cbn zeta in H.
    apply bind_ok in H; destruct H as (tf & Etf & H). apply bind_ok in H; destruct H as (tl & Etl & H).
    apply bind_ok in H; destruct H as (da & _ & H). apply bind_ok in H; destruct H as (db & _ & H).
    match type of H with (if ?c then _ else _) = _ => destruct c; [discriminate|] end.
    apply bind_ok in H; destruct H as (p & _ & H).
    match type of H with (if ?c then _ else _) = _ => destruct c; [discriminate|] end.
    apply outer_loop_listed in H; [|exact C|].
    - eexists. split; [|exact H]. apply get_ok in Etf. apply last_of_nth in Etl. exists tf, tl. repeat split; tauto.
    - split; [apply listed_nil|]. split; [apply listed_nil|]. cbn. repeat split; try contradiction; lia.
  Qed.
  Lemma search_short d sign fuel inner ph0 : nth_error (f_phase d) 0 = Some ph0 ->
    Forall (fun y => y <= ph0 + (11 # 10) * inject_Z (Z.of_nat (f_orbits d) - 1) * 4 * np_pi)%Q (f_phase d) \/ f_orbits d = 0 ->
    exists e, search fuel inner d sign = Err e.
  Proof.
    intros E0 Sh. destruct (search fuel inner d sign) as [r|e] eqn:H; [exfalso|eauto].
    unfold FitsModel.search in H. apply bind_ok in H; destruct H as (ph0' & E0' & H). cbn zeta in H. apply get_ok in E0'.
    assert (ph0' = ph0) by congruence. subst ph0'.
    do 4 (apply bind_ok in H; destruct H as (? & _ & H)).
    match type of H with (if ?c then _ else _) = _ => destruct c; [discriminate|] end.
    apply bind_ok in H; destruct H as (p & _ & H).
    match type of H with (if ?c then _ else _) = _ => destruct c eqn:Er; [discriminate|] end.
    apply Nat.eqb_neq in Er. apply Er. clear H Er. unfold argmax_bool.
    match goal with |- match ?c with Some _ => _ | None => _ end = _ => destruct c as [j|] eqn:Ej; [|reflexivity] end.
    apply find_index_some in Ej. destruct Ej as [(y & Ey & Hy) Fst]. apply Qlt_bool_iff in Hy. destruct Sh as [Sh|Sh].
    - exfalso. rewrite Forall_forall in Sh. apply nth_error_In in Ey. specialize (Sh y Ey). now apply (Qlt_not_le _ _ Hy).
    - destruct j as [|j]; [reflexivity|exfalso]. specialize (Fst 0 ph0 ltac:(lia) E0). apply Qlt_bool_false in Fst.
      apply (Qle_not_lt _ _ Fst). rewrite Sh. unfold np_pi, inject_Z. cbn [Z.of_nat Z.sub]. clear.
      assert (A : (ph0 + (11 # 10) * inject_Z (0 - 1) * 4 * (884279719003555 # 281474976710656) < ph0 + 0)%Q).
      { apply Qplus_lt_r. reflexivity. }
      rewrite Qplus_0_r in A. exact A.
  Qed.
End Facts.
