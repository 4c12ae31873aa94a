(** The envelope-fit search never indexes outside its arrays when num_orbits is at least 2. *)
From Coq Require Import Sorting.Sorted.
From Verif Require Import Base BaseLemmas FitsModel FitsSpec FitsLemmas FitsClaims.
Open Scope string_scope.
Open Scope list_scope.
Open Scope nat_scope.

Lemma ni_bind {A B} (r : res A) (f : A -> res B) : ni r -> (forall a, r = Ok a -> ni (f a)) -> ni (bind r f).
Proof. intros H G. destruct r as [a|e]; cbn; [auto|]. intros E. apply H. congruence. Qed.
Lemma ni_err {A B} (r : res A) e : r = Err e -> ni r -> ni (@Err B e).
Proof. intros -> H E. apply H. congruence. Qed.
Lemma ni_get {A} (l : list A) i : i < length l -> ni (get l i).
Proof. intros H. destruct (get_in_range l i H) as [a ->]. discriminate. Qed.
Lemma ni_zget {A} (l : list A) i : (- Z.of_nat (length l) <= i < Z.of_nat (length l))%Z -> ni (zget l i).
Proof.
  intros H. unfold zget. destruct (0 <=? i)%Z eqn:E.
  - apply Z.leb_le in E. apply ni_get. lia.
  - apply Z.leb_gt in E. destruct (0 <=? Z.of_nat (length l) + i)%Z eqn:E2; [apply ni_get; lia|]. apply Z.leb_gt in E2. lia.
Qed.
Lemma ni_gather {A} (l : list A) idx : Forall (fun i => i < length l) idx -> ni (gather l idx).
Proof. intros H. destruct (gather_total l idx H) as [r ->]. discriminate. Qed.
Lemma ni_qmax l : ni (qmax l).
Proof. destruct l; discriminate. Qed.
Lemma ni_qmin l : ni (qmin l).
Proof. destruct l; discriminate. Qed.
Lemma ni_eval {A B} (f : A -> res B) l : (forall a, ni (f a)) -> ni (eval_all f l).
Proof. intros H. induction l as [|a l IH]; cbn; [discriminate|]. apply ni_bind; [apply H|]. intros. apply ni_bind; [exact IH|]. discriminate. Qed.
Lemma ni_spread l : ni (spread l).
Proof. unfold spread. apply ni_bind; [apply ni_qmax|]. intros. apply ni_bind; [apply ni_qmin|]. discriminate. Qed.
Lemma argmax_bool_lt {A} (p : A -> bool) l : l <> [] -> argmax_bool p l < length l.
Proof.
  intros H. unfold argmax_bool. destruct (find_index p l) as [j|] eqn:E.
  - apply find_index_some in E. destruct E as [(a & Ha & _) _]. apply nth_error_Some. congruence.
  - destruct l; [contradiction|cbn; lia].
Qed.
Lemma filter_parts (ref : nat) l : length (filter (fun i => i <? ref) l) + length (filter (fun i => ref <=? i) l) = length l.
Proof.
  induction l as [|a l IH]; [reflexivity|]. cbn [filter].
  destruct (Nat.ltb_spec a ref), (Nat.leb_spec ref a); cbn [length]; lia.
Qed.
Lemma sorted_split (ref : nat) l : StronglySorted lt l -> forall k x, nth_error l k = Some x ->
  (ref <= x <-> length (filter (fun i => i <? ref) l) <= k).
Proof.
  induction 1 as [|a l S IH F]; intros k x H; [destruct k; discriminate|].
  cbn [filter]. destruct (a <? ref) eqn:E.
  - apply Nat.ltb_lt in E. destruct k as [|k]; cbn in *; [injection H as <-; lia|]. specialize (IH k x H). lia.
  - apply Nat.ltb_ge in E. assert (N : filter (fun i => i <? ref) l = []).
    { clear IH S H. induction F as [|b l Hb F IH]; [reflexivity|]. cbn [filter]. rewrite (proj2 (Nat.ltb_ge b ref)) by lia. exact IH. }
    rewrite N. destruct k as [|k]; cbn in *; [injection H as <-; lia|]. rewrite Forall_forall in F.
    apply nth_error_In in H. specialize (F x H). lia.
Qed.
Lemma argmax_first (ref : nat) l : StronglySorted lt l -> 1 <= length (filter (fun i => ref <=? i) l) ->
  argmax_bool (fun i => ref <=? i) l = length (filter (fun i => i <? ref) l).
Proof.
  intros S N. unfold argmax_bool. destruct (find_index (fun i => ref <=? i) l) as [j|] eqn:E.
  - apply find_index_some in E. destruct E as [(x & Ex & Hx) Fst]. apply Nat.leb_le in Hx.
    apply (sorted_split ref l S j x Ex) in Hx. assert (P := filter_parts ref l).
    destruct (Nat.eq_dec j (length (filter (fun i => i <? ref) l))) as [D|D]; [exact D|exfalso].
    assert (L : length (filter (fun i => i <? ref) l) < length l) by lia. apply nth_error_Some in L.
    destruct (nth_error l (length (filter (fun i => i <? ref) l))) as [y|] eqn:Ey; [|congruence].
    specialize (Fst (length (filter (fun i => i <? ref) l)) y ltac:(lia) Ey). apply Nat.leb_gt in Fst.
    assert (Y := proj2 (sorted_split ref l S _ y Ey) ltac:(reflexivity)). lia.
  - exfalso. destruct (filter_nonempty (fun i => ref <=? i) l N) as (x & Ix & Hx).
    apply In_nth_error in Ix. destruct Ix as [k Hk]. rewrite (find_index_none _ _ E _ _ Hk) in Hx. discriminate.
Qed.

Section Index.
  Context (env : Q -> params -> Q -> res Q)
          (curve_fit : Q -> list Q -> list Q -> params -> params * params -> res params)
          (find_peaks : list Q -> Z -> Q -> res (list nat))
          (parabola : list Q -> list Q -> res (Q * Q))
          (cubic : list Q -> list Q -> Q -> res Q).
  Notation near_step := (near_step env curve_fit find_peaks parabola cubic).
  Notation near_loop := (near_loop env curve_fit find_peaks parabola cubic).
  Notation find_near := (find_near env curve_fit find_peaks parabola cubic).
  Notation outer_step := (outer_step env curve_fit find_peaks parabola cubic).
  Notation outer_loop := (outer_loop env curve_fit find_peaks parabola cubic).
  Notation search := (search env curve_fit find_peaks parabola cubic).

  Notation library_indexes := (library_indexes env curve_fit find_peaks parabola cubic).
  Section Safe.
    Hypotheses (L : library_indexes) (C : peaks_contract find_peaks).
    Context (d : fits) (n : nat).
    Hypotheses (Lt : length (f_t d) = n) (Lp : length (f_phase d) = n) (Ld : length (f_data d) = n).

    Lemma ni_envelope t0 p ts : ni (envelope env t0 p ts).
    Proof. unfold envelope. apply ni_bind; [apply ni_qmax|]. intros m _. destruct (Qlt_bool _ _); [discriminate|]. apply ni_eval. intros. apply L. Qed.
    Lemma ni_residual t0 lo hi p : ni (residual env d t0 lo hi p).
    Proof. unfold residual. apply ni_bind; [apply ni_envelope|]. discriminate. Qed.
    Lemma ni_asked t0 lo hi p : hi <= n -> ni (distance_and_prominence env d t0 lo hi p).
    Proof.
      intros Hh. unfold distance_and_prominence. apply ni_bind; [apply ni_qmax|]. intros step Es. apply qmax_ok in Es. destruct Es as [Is _].
      assert (B : lo < hi /\ 2 <= hi).
      { assert (Lq : 1 <= length (qdiff (slice (f_t d) lo hi))) by (destruct (qdiff (slice (f_t d) lo hi)); cbn in *; [contradiction|lia]).
        rewrite qdiff_length, slice_length in Lq. lia. }
      rewrite !zget_nat by lia.
      apply ni_bind; [apply ni_get; lia|]. intros ? _. apply ni_bind; [apply ni_get; lia|]. intros ? _.
      apply ni_bind; [apply ni_get; lia|]. intros ? _. apply ni_bind; [apply ni_get; lia|]. intros ? _.
      destruct (Qeq_bool _ _); [discriminate|]. destruct (Qeq_bool _ _); [discriminate|].
      apply ni_bind; [apply ni_residual|]. intros ? _. apply ni_bind; [apply ni_spread|]. discriminate.
    Qed.
    Lemma ni_refine t0 p x : ni (refine_one env parabola cubic d t0 p x).
    Proof.
      unfold refine_one. destruct x as [[t y] ph]. destruct (Qeq_bool _ _); [discriminate|]. destruct (_ <=? _); [|discriminate].
      match goal with |- context [where_idx ?c ?l] => set (near := where_idx c l) end.
      assert (F : Forall (fun i => i < n) near).
      { apply Forall_forall. intros i Hi. apply where_idx_in in Hi. destruct Hi as (a & Ha & _). rewrite <- Lt. apply nth_error_Some. congruence. }
      apply ni_bind; [apply ni_gather; now rewrite Lt|]. intros ? _. apply ni_bind; [apply ni_gather; now rewrite Ld|]. intros ? _.
      apply ni_bind; [apply ni_envelope|]. intros ? _. apply ni_bind; [apply L|]. intros v _.
      apply ni_bind; [apply ni_envelope|]. intros f1 E. apply envelope_ok in E. inversion E as [|a' b' l' r' Hab Hlr]; subst.
      apply ni_bind; [apply ni_get; cbn; lia|]. intros ? _.
      apply ni_bind; [apply ni_gather; rewrite Lp; exact F|]. intros ? _. apply ni_bind; [apply L|]. discriminate.
    Qed.

    Lemma half_lt (a b m : nat) : a < m -> b < m -> (a + b) / 2 < m.
    Proof. intros. apply Nat.div_lt_upper_bound; lia. Qed.
    Lemma left_ok before idx lo ref K nleft nright : StronglySorted lt idx -> Forall (fun i => i < n) idx -> lo < n -> ref < n ->
      nleft = length (filter (fun i => i <? ref) idx) -> nright = length (filter (fun i => ref <=? i) idx) -> 1 <= before ->
      ni (move_left d before idx lo ref K nleft nright) /\
      forall lo' ref' nr', move_left d before idx lo ref K nleft nright = Ok (lo', ref', nr') -> lo' < n /\ ref' < n /\ nr' <= nright.
    Proof.
      intros S F Hlo Href Nl Nr Hb. assert (P := filter_parts ref idx). rewrite <- Nl, <- Nr in P.
      assert (In_lt : forall k a, get idx k = Ok a -> a < n).
      { intros k a H. apply get_ok, nth_error_In in H. rewrite Forall_forall in F. auto. }
      unfold move_left. destruct (before <? nleft) eqn:E1.
      { apply Nat.ltb_lt in E1. split.
        - apply ni_bind; [apply ni_get; lia|]. intros ? _. apply ni_bind; [apply ni_get; lia|]. discriminate.
        - intros lo' ref' nr' H. apply bind_ok in H; destruct H as (a & Ea & H). apply bind_ok in H; destruct H as (b & Eb & H).
          apply Ok_inj in H. inversion H; subst lo' ref' nr'. split; [apply half_lt; eauto|split; lia]. }
      destruct (nleft <? before); [|split; [discriminate|]; intros lo' ref' nr' H; apply Ok_inj in H; injection H as <- <- <-; auto].
      destruct (lo =? 0).
      - destruct (2 <=? nright) eqn:E2; [|split; [discriminate|]; intros lo' ref' nr' H; apply Ok_inj in H; injection H as <- <- <-; auto].
        apply Nat.leb_le in E2. cbn zeta. rewrite argmax_first by (try assumption; lia). rewrite <- Nl. split.
        + apply ni_bind; [apply ni_get; lia|]. intros ? _. apply ni_bind; [apply ni_get; lia|]. discriminate.
        + intros lo' ref' nr' H. apply bind_ok in H; destruct H as (a & Ea & H). apply bind_ok in H; destruct H as (b & Eb & H).
          apply Ok_inj in H. inversion H; subst lo' ref' nr'. split; [exact Hlo|]. split; [apply half_lt; eauto|lia].
      - split.
        + apply ni_bind; [apply ni_get; lia|]. discriminate.
        + intros lo' ref' nr' H. apply bind_ok in H; destruct H as (a & Ea & H). apply Ok_inj in H. injection H as <- <- <-.
          repeat split; auto. rewrite <- Lp. apply argmax_bool_lt. intros E. rewrite E in Lp. cbn in Lp. lia.
    Qed.
    Lemma right_ok after idx hi K nright : Forall (fun i => i < n) idx -> hi <= n -> nright <= length idx -> 1 <= after -> 1 <= n ->
      ni (move_right d after idx hi K nright) /\ forall hi', move_right d after idx hi K nright = Ok hi' -> hi' <= n.
    Proof.
      intros F Hh Hn Ha H1.
      assert (In_lt : forall k a, zget idx k = Ok a -> a < n).
      { intros k a H. unfold zget in H. rewrite Forall_forall in F.
        destruct (0 <=? k)%Z; [|destruct (0 <=? Z.of_nat (length idx) + k)%Z; [|discriminate]]; apply get_ok, nth_error_In in H; auto. }
      unfold move_right. destruct (after <? nright) eqn:E1.
      { apply Nat.ltb_lt in E1. cbn zeta. split.
        - apply ni_bind; [apply ni_zget; lia|]. intros ? _. apply ni_bind; [apply ni_zget; lia|]. discriminate.
        - intros hi' H. apply bind_ok in H; destruct H as (a & Ea & H). apply bind_ok in H; destruct H as (b & Eb & H).
          apply Ok_inj in H. subst hi'. apply Nat.lt_le_incl, half_lt; eauto. }
      destruct (nright <? after); [|split; [discriminate|]; intros hi' H; apply Ok_inj in H; now subst].
      destruct (hi <? length (f_phase d)) eqn:E2; [|split; [discriminate|]; intros hi' H; apply Ok_inj in H; now subst].
      apply Nat.ltb_lt in E2. split; [apply ni_bind; [now apply ni_get|discriminate]|].
      intros hi' H. apply bind_ok in H; destruct H as (x & _ & H). apply Ok_inj in H. subst hi'.
      match goal with |- (if ?c then _ else _) <= _ => destruct c end; [lia|]. rewrite <- Lp. apply Nat.lt_le_incl, argmax_bool_lt.
      intros E. rewrite E in Lp. cbn in Lp. lia.
    Qed.

    Definition bounded (s : near) : Prop := n_lo s < n /\ n_hi s <= n /\ n_ref s < n.
    Lemma near_step_index t0 b sign before after dist prom s : 1 <= before -> 1 <= after -> bounded s ->
      ni (near_step d t0 b sign before after dist prom s) /\
      forall x, near_step d t0 b sign before after dist prom s = Ok x ->
        match x with inl f => Forall (fun i => i < n) (r_idx f) /\ r_ref f < n | inr s' => bounded s' end.
    Proof.
      intros Hb Ha (B1 & B2 & B3). unfold FitsModel.near_step.
      destruct (residual env d t0 (n_lo s) (n_hi s) (n_p s)) as [r|e] eqn:Er; cbn [bind];
        [|split; [apply (ni_err _ _ Er); apply ni_residual|discriminate]].
      destruct (spread r) as [amp|e] eqn:Es; cbn [bind]; [|split; [apply (ni_err _ _ Es); apply ni_spread|discriminate]].
      destruct (find_peaks (map (Qmult sign) r) dist prom) as [peaks|e] eqn:Ep; cbn [bind];
        [|split; [apply (ni_err _ _ Ep); apply L|discriminate]].
      destruct (C _ _ _ _ Ep) as [Sp Fp]. rewrite map_length in Fp. apply residual_ok, detrended_length in Er. rewrite Ld in Er.
      assert (Sd : StronglySorted lt (map (Nat.add (n_lo s)) peaks)) by now apply StronglySorted_map_add.
      assert (F : Forall (fun i => i < n) (map (Nat.add (n_lo s)) peaks)).
      { apply Forall_forall. intros i Hi. apply in_map_iff in Hi. destruct Hi as (k & <- & Hk). rewrite Forall_forall in Fp. specialize (Fp k Hk). lia. }
      set (idx := map (Nat.add (n_lo s)) peaks) in *.
      destruct (gather_total (f_t d) idx) as [ts Et]; [now rewrite Lt|]. destruct (gather_total (f_data d) idx) as [ys Ey]; [now rewrite Ld|].
      destruct (gather_total (f_phase d) idx) as [phs Eh]; [now rewrite Lp|]. destruct (gather_total r peaks) as [rs Ers]; [exact Fp|].
      rewrite Et, Ey, Eh, Ers. cbn [bind].
      match goal with |- ni (bind ?c _) /\ _ => destruct c as [K|e] eqn:EK end; cbn [bind].
      2:{ split; [|discriminate]. apply (ni_err _ _ EK). destruct (2 <=? length idx) eqn:E2; [|discriminate]. apply Nat.leb_le in E2.
          apply gather_length in Eh. apply ni_bind; [apply ni_get; lia|]. intros ? _.
          apply ni_bind; [apply ni_zget; lia|]. discriminate. }
      clear EK.
      match goal with |- ni (bind ?c _) /\ _ => destruct c as [info|e] eqn:Ei end; cbn [bind].
      2:{ split; [|discriminate]. apply (ni_err _ _ Ei). destruct (f_refine d); [|discriminate]. apply ni_eval. intros. apply ni_refine. }
      clear Ei.
      match goal with |- ni (if ?c then _ else _) /\ _ => destruct c end.
      { split; [discriminate|]. intros x H. apply Ok_inj in H. subst x. split; assumption. }
      match goal with |- ni (bind ?c _) /\ _ => set (u := c) end.
      assert (U : ni u /\ forall lo hi ref nr, u = Ok (lo, hi, ref, nr) -> lo < n /\ hi <= n /\ ref < n).
      { unfold u. match goal with |- ni (if ?c then _ else _) /\ _ => destruct c end.
        { split; [discriminate|]. intros lo hi ref nr H. apply Ok_inj in H. inversion H; subst lo hi ref nr. auto. }
        destruct (left_ok before idx (n_lo s) (n_ref s) K _ _ Sd F B1 B3 eq_refl eq_refl Hb) as [Ln Lo].
        assert (Rn : forall nr, nr <= length (filter (fun i => n_ref s <=? i) idx) -> nr <= length idx).
        { intros nr H. assert (P := filter_parts (n_ref s) idx). lia. }
        split.
        - apply ni_bind; [exact Ln|]. intros [[lo ref] nr] E. destruct (Lo _ _ _ E) as (A1 & A2 & A3).
          apply ni_bind; [|discriminate]. apply right_ok; auto; lia.
        - intros lo hi ref nr H. apply bind_ok in H; destruct H as ([[lo1 ref1] nr1] & E & H). destruct (Lo _ _ _ E) as (A1 & A2 & A3).
          apply bind_ok in H; destruct H as (hi1 & Eh1 & H). apply Ok_inj in H. inversion H; subst lo hi ref nr. split; [exact A1|]. split; [|exact A2].
          eapply right_ok; [exact F|exact B2| | | |exact Eh1]; auto; lia. }
      clearbody u. destruct U as [Un Uo]. destruct u as [[[[lo hi] ref] nr]|e]; cbn [bind]; [|split; [intros H; apply Un; congruence|discriminate]].
      destruct (Uo _ _ _ _ eq_refl) as (U1 & U2 & U3). clear Uo Un.
      match goal with |- ni (if ?c then _ else _) /\ _ => destruct c end.
      { split; [discriminate|]. intros x H. apply Ok_inj in H. subst x. repeat split; assumption. }
      match goal with |- ni (bind ?c _) /\ _ => destruct c as [delta|e] eqn:Edelta end; cbn [bind].
      2:{ split; [|discriminate]. apply (ni_err _ _ Edelta). match goal with |- ni (if ?c then _ else _) => destruct c end; [|discriminate].
          apply ni_bind; [apply ni_qmax|]. discriminate. }
      do 3 (match goal with |- ni (if ?c then _ else _) /\ _ => destruct c end;
            [split; [discriminate|]; intros x H; apply Ok_inj in H; subst x; split; assumption|]).
      split; [apply ni_bind; [apply L|discriminate]|].
      intros x H. apply bind_ok in H; destruct H as (p & _ & H). apply Ok_inj in H. subst x. repeat split; assumption.
    Qed.
    Lemma near_loop_index t0 b sign before after dist prom : 1 <= before -> 1 <= after -> forall fuel s, bounded s ->
      ni (near_loop d t0 b sign fuel before after dist prom s) /\
      forall f, near_loop d t0 b sign fuel before after dist prom s = Ok f -> Forall (fun i => i < n) (r_idx f) /\ r_ref f < n.
    Proof.
      intros Hb Ha. induction fuel as [|fuel IH]; intros s B; [split; discriminate|]. cbn [FitsModel.near_loop].
      destruct (near_step_index t0 b sign before after dist prom s Hb Ha B) as [N O]. split.
      - apply ni_bind; [exact N|]. intros [f|s'] E; [discriminate|]. apply IH. exact (O _ E).
      - intros f H. apply bind_ok in H; destruct H as ([f'|s'] & E & H); [apply Ok_inj in H; subst; exact (O _ E)|].
        eapply IH; [exact (O _ E)|exact H].
    Qed.
    Lemma find_near_index t0 b sign fuel before after ref K p : 1 <= before -> 1 <= after -> ref < n ->
      ni (find_near d t0 b sign fuel before after ref K p) /\
      forall f, find_near d t0 b sign fuel before after ref K p = Ok f -> Forall (fun i => i < n) (r_idx f) /\ r_ref f < n.
    Proof.
      intros Hb Ha Hr. unfold FitsModel.find_near, near_start.
      destruct (get_in_range (f_phase d) ref) as [x ->]; [lia|]. cbn [bind].
      match goal with |- context [near_loop _ _ _ _ _ _ _ _ _ ?st] => set (s := st) end.
      assert (NE : f_phase d <> []) by (intros E; rewrite E in Lp; cbn in Lp; lia).
      assert (B : bounded s).
      { split; [|split; [|exact Hr]]; unfold s; cbn [n_lo n_hi].
        - rewrite <- Lp. now apply argmax_bool_lt.
        - match goal with |- (if ?c then _ else _) <= _ => destruct c end; [lia|]. rewrite <- Lp. now apply Nat.lt_le_incl, argmax_bool_lt. }
      clearbody s. split.
      - apply ni_bind; [apply ni_asked, B|]. intros w _. now apply near_loop_index.
      - intros f H. apply bind_ok in H; destruct H as (w & _ & H). eapply near_loop_index; [exact Hb|exact Ha|exact B|exact H].
    Qed.
    Lemma outer_step_index t0 b sign inner s : peaks_contract find_peaks -> 2 <= f_orbits d -> o_ref s < n ->
      ni (outer_step d t0 b sign inner s) /\ forall s', outer_step d t0 b sign inner s = Ok (inr s') -> o_ref s' < n.
    Proof.
      intros _ H2 Hr. unfold FitsModel.outer_step. set (N := f_orbits d) in *. cbn zeta.
      destruct (find_near_index t0 b sign inner N (N + 1) (o_ref s) (o_K s) (o_p s) ltac:(lia) ltac:(lia) Hr) as [Fn Fo].
      destruct (find_near d t0 b sign inner N (N + 1) (o_ref s) (o_K s) (o_p s)) as [f|e] eqn:Ef; cbn [bind];
        [|split; [intros E; apply Fn; congruence|discriminate]].
      destruct (Fo f eq_refl) as [F Rf]. apply find_near_good in Ef; [|exact C]. destruct Ef as [G _].
      assert (Li : length (r_idx f) = length (r_info f)) by (eapply Forall2_same_length; apply G).
      set (idx := r_idx f) in *. set (info := r_info f) in *.
      assert (T : exists te : bool, (if length idx <? 2 * N + 1 then Ok true else do x <- get idx N; Ok (x <? r_ref f)) = Ok te /\
                             (te = false -> 2 * N + 1 <= length idx)).
      { destruct (length idx <? 2 * N + 1) eqn:E; [exists true; split; [reflexivity|discriminate]|]. apply Nat.ltb_ge in E.
        destruct (get_in_range idx N) as [x ->]; [lia|]. cbn. eexists; split; [reflexivity|intros; lia]. }
      destruct T as (te & -> & Te). cbn [bind].
      match goal with |- ni (bind ?c _) /\ _ => set (u := c) end.
      assert (U : ni u).
      { unfold u. destruct (2 * N - 1 <=? length idx) eqn:E; [|destruct te; discriminate]. apply Nat.leb_le in E.
        assert (Sq : forall m, length idx <= m -> Forall (fun i => i < m) (seq 0 N)).
        { intros m Hm. apply Forall_forall. intros i Hi. apply in_seq in Hi. lia. }
        apply ni_bind.
        - destruct (_ =? _)%Z; [|discriminate]. apply ni_bind; [apply ni_gather, Sq; lia|]. intros ? _.
          apply ni_bind; [apply ni_gather, Sq; lia|]. discriminate.
        - intros fs _. apply ni_bind; [apply ni_get; lia|]. intros m _. apply ni_bind.
          + destruct (_ <? _); [|discriminate]. apply ni_bind; [apply ni_get; lia|]. discriminate.
          + intros [[[? ?] ?] ?] _. destruct te; discriminate. }
      clearbody u. destruct u as [[[[ext inf] extra] ei]|e]; cbn [bind]; [|split; [intros E; apply U; congruence|discriminate]].
      destruct te; [split; [discriminate|]; intros s' H; apply Ok_inj in H; discriminate|].
      specialize (Te eq_refl). destruct (get_in_range idx N) as [a Ea]; [lia|]. destruct (get_in_range idx (N + 1)) as [c Ec]; [lia|].
      rewrite Ea, Ec. cbn [bind]. destruct (_ <? _)%Z; [split; discriminate|]. split; [discriminate|].
      intros s' H. apply Ok_inj in H. injection H as <-. cbn [o_ref]. rewrite Forall_forall in F.
      apply half_lt; apply F; [apply get_ok, nth_error_In in Ea|apply get_ok, nth_error_In in Ec]; assumption.
    Qed.
    Lemma outer_loop_index t0 b sign inner : 2 <= f_orbits d -> forall fuel s, o_ref s < n -> ni (outer_loop d t0 b sign fuel inner s).
    Proof.
      intros H2. induction fuel as [|fuel IH]; intros s H; [discriminate|]. cbn [FitsModel.outer_loop].
      destruct (outer_step_index t0 b sign inner s C H2 H) as [N O]. apply ni_bind; [exact N|].
      intros [r|s'] E; [discriminate|]. apply IH. exact (O _ E).
    Qed.
    Lemma search_index sign fuel inner : 2 <= f_orbits d -> 1 <= n -> ni (search fuel inner d sign).
    Proof.
      intros H2 H1. unfold FitsModel.search. assert (NE : f_phase d <> []) by (intros E; rewrite E in Lp; cbn in Lp; lia).
      apply ni_bind; [apply ni_get; lia|]. intros ph0 _. cbn zeta.
      apply ni_bind; [apply ni_get; lia|]. intros ? _. apply ni_bind; [apply ni_zget; lia|]. intros ? _.
      apply ni_bind; [apply ni_get; lia|]. intros ? _. apply ni_bind.
      { match goal with |- context [argmax_bool ?p ?l] => assert (A := argmax_bool_lt p l NE); set (e := argmax_bool p l) in * end.
        destruct (e =? 0); apply ni_zget; lia. }
      intros ? _. destruct (Qeq_bool _ _); [discriminate|]. apply ni_bind; [apply L|]. intros ? _.
      match goal with |- ni (if ?c then _ else _) => destruct c; [discriminate|] end.
      apply outer_loop_index; [exact H2|]. cbn [o_ref]. rewrite <- Lp. now apply argmax_bool_lt.
    Qed.
  End Safe.

  Lemma no_index_error d tm kind times e : library_indexes -> peaks_contract find_peaks ->
    f_t d <> [] -> length (f_phase d) = length (f_t d) -> length (f_data d) = length (f_t d) -> 2 <= f_orbits d ->
    find_extrema env curve_fit find_peaks parabola cubic d tm kind = (times, Err e) -> e <> IndexError.
  Proof.
    intros L C NE H1 H2 H3. rewrite find_extrema_eq. destruct (sign_of kind) as [sign|]; [|intros H; injection H as <- <-; discriminate].
    assert (N : 1 <= length (f_t d)) by (destruct (f_t d); [contradiction|cbn; lia]).
    assert (S := search_index L C (from_merger d tm) (length (f_t d)) (map_length _ _) H1 H2 sign (Z.to_nat 10001) 21 H3 N).
    destruct (search (Z.to_nat 10001) 21 (from_merger d tm) sign) as [r|e']; [discriminate|].
    intros H ->. apply S. congruence.
  Qed.
End Index.

Lemma toy_indexes : library_indexes toy_env toy_curve_fit toy_find_peaks toy_parabola toy_cubic.
Proof. repeat split; intros; discriminate. Qed.
(** num_orbits = 1: a search that ends with a single extremum indexes outside its array. *)
Lemma single_orbit : exists env curve_fit find_peaks parabola cubic d tm times,
  peaks_contract find_peaks /\ library_indexes env curve_fit find_peaks parabola cubic /\
  length (f_phase d) = length (f_t d) /\ length (f_data d) = length (f_t d) /\ f_orbits d = 1 /\
  find_extrema env curve_fit find_peaks parabola cubic d tm "pericenters" = (times, Err IndexError).
Proof.
  exists toy_env, toy_curve_fit, toy_find_peaks, toy_parabola, toy_cubic, (toy_fits 1 true 10), 60%Q, (fst (toy_call 1 true 10 "pericenters")).
  split; [exact toy_contract|]. split; [exact toy_indexes|]. do 3 (split; [reflexivity|]). vm_compute. reflexivity.
Qed.
