(** Invariants of the distributed run: every sample in flight is in exactly one place. *)
From Verif Require Import Base BaseLemmas PostModel MpiModel MpiSpec MpiLemmas.
From Coq Require Import Lia Permutation.
Open Scope list_scope.
Open Scope nat_scope.

Section Run.
  Context {P V : Type} (work : Z -> P -> presult V) (c : config P) (todo : list (nat * Z * P)).
  Notation sys := (sys P V).
  Notation run := (run work c todo).
  Notation act := (act work c todo).
  Notation N := (length todo).

  Lemma run_app l1 : forall l2 s, run (l1 ++ l2) s = match run l1 s with Some s' => run l2 s' | None => None end.
  Proof. induction l1 as [|x l1 IH]; intros l2 s; cbn; [auto|]. destruct (act x s); auto. Qed.
  Lemma run_invariant (I : sys -> Prop) : (forall x s s', I s -> act x s = Some s' -> I s') ->
    forall l s s', I s -> run l s = Some s' -> I s'.
  Proof.
    intros H l. induction l as [|x l IH]; intros s s' Hs E; cbn in E; [apply Some_inj in E; subst; auto|].
    destruct (act x s) as [s1|] eqn:E1; [|discriminate]. eapply IH; [|exact E]. eapply H; eauto.
  Qed.

  (** *** Dispatching *)
  Definition in_range (s : sys) : Prop := exists m, s_next s = Z.of_nat m /\ m <= N.
  Hypothesis batch_pos : (1 <= k_batch c)%Z.

  (** Either STOP is sent and everything has been dispatched, or a batch that is not empty. *)
  Definition fields_kept (s s' : sys) : Prop :=
    s_pc s' = s_pc s /\ s_results s' = s_results s /\ s_since s' = s_since s /\ s_completed s' = s_completed s /\
    s_file s' = s_file s /\ s_table s' = s_table s /\ s_computed s' = s_computed s.
  Definition put (m : msg P) (w : worker P V) : worker P V := {| w_in := w_in w ++ [m]; w_state := w_state w; w_out := w_out w |}.
  Lemma dispatch_cases k s m w : s_next s = Z.of_nat m -> m <= N -> nth_error (s_workers s) k = Some w ->
    let s' := dispatch c todo k s in fields_kept s s' /\
    ((m = N /\ s_next s' = s_next s /\ s_workers s' = upd k (put Stop w) (s_workers s) /\ s_sent s' = s_sent s ++ [(k, Stop)]) \/
     (exists m' b, m < m' /\ m' <= N /\ s_next s' = Z.of_nat m' /\ b = slice (extract todo) m m' /\ length b = m' - m /\
       (Z.of_nat (m' - m) <= k_batch c)%Z /\
       s_workers s' = upd k (put (Batch b) w) (s_workers s) /\ s_sent s' = s_sent s ++ [(k, Batch b)])).
  Proof.
    intros E L W. unfold dispatch, send. rewrite E, W. destruct (Z.ltb_spec (Z.of_nat m) (Z.of_nat N)) as [H|H].
    - cbn. split; [unfold fields_kept; cbn; auto 10|]. right.
      set (e := Z.min (Z.of_nat m + k_batch c) (Z.of_nat N)).
      exists (Z.to_nat e), (extract (zslice todo (Z.of_nat m) e)).
      assert (He : (Z.of_nat m < e <= Z.of_nat N)%Z) by (unfold e; lia).
      assert (Ee : e = Z.of_nat (Z.to_nat e)) by lia.
      split; [lia|]. split; [lia|]. split; [exact Ee|].
      split; [rewrite Ee at 1; rewrite zslice_nat; unfold extract; rewrite slice_map; reflexivity|].
      split; [|split; [unfold e; lia|split; reflexivity]].
      rewrite Ee at 1. rewrite zslice_nat. unfold extract. rewrite map_length, slice_length. lia.
    - cbn. split; [unfold fields_kept; cbn; auto 10|]. left. split; [lia|]. split; [auto|]. split; reflexivity.
  Qed.
  Lemma dispatch_none k s : nth_error (s_workers s) k = None -> in_range s ->
    let s' := dispatch c todo k s in fields_kept s s' /\ s_workers s' = s_workers s /\ in_range s' /\ (s_next s <= s_next s')%Z.
  Proof.
    intros W (m & E & L). unfold dispatch, send. rewrite W. destruct (Z.ltb_spec (s_next s) (Z.of_nat N)) as [H|H].
    - cbn. split; [unfold fields_kept; cbn; auto 10|]. split; [auto|]. split; [|lia].
      exists (Z.to_nat (Z.min (s_next s + k_batch c) (Z.of_nat N))). cbn. split; lia.
    - split; [unfold fields_kept; cbn; auto 10|]. split; [auto|]. split; [exists m; auto|lia].
  Qed.
  Lemma dispatch_range k s : in_range s -> in_range (dispatch c todo k s).
  Proof.
    intros R. destruct (nth_error (s_workers s) k) as [w|] eqn:W; [|apply (dispatch_none k s W R)].
    destruct R as (m & E & L). destruct (dispatch_cases k s m w E L W) as (_ & [(-> & X & _)|(m' & b & _ & L' & X & _)]).
    - exists N. split; [rewrite X; exact E|lia].
    - exists m'. auto.
  Qed.
  Lemma act_range x s s' : in_range s -> act x s = Some s' -> in_range s'.
  Proof.
    intros R. destruct x as [|k|k]; cbn.
    - unfold master_step. destruct (s_pc s) as [|k|k| |k [|[i r] l]| | |e]; try discriminate.
      + intros H. apply Some_inj in H. subst. unfold finish. destruct (save_final _ _); exact R.
      + intros H. apply Some_inj in H. subst. destruct (k <? k_workers c); [|exact R]. unfold send. destruct (nth_error _ _); exact R.
      + intros H. apply Some_inj in H. subst. destruct (k <? k_workers c); [|exact R]. exact (dispatch_range k s R).
      + destruct (s_completed s <? N); [discriminate|]. intros H. apply Some_inj in H. subst. exact R.
      + intros H. apply Some_inj in H. subst. exact (dispatch_range k s R).
      + intros H. apply Some_inj in H. subst. unfold record_one. destruct (pos_of _ _); exact R.
      + intros H. apply Some_inj in H. subst. unfold finish. destruct (save_final _ _); exact R.
    - unfold receive. destruct (s_pc s); try discriminate. destruct (nth_error _ _) as [w|]; [|discriminate].
      destruct (w_out w); [discriminate|]. destruct (_ <? _); [|discriminate]. intros H. apply Some_inj in H. subst. exact R.
    - unfold worker_step. destruct (nth_error _ _) as [w|]; [|discriminate].
      destruct (w_state w); destruct (w_in w) as [|[b|] ms]; try discriminate; intros H; apply Some_inj in H; subst; exact R.
  Qed.

  (** *** Termination: a number that every step makes smaller *)
  Definition msg_cost (m : msg P) : nat := match m with Batch b => 6 + length b | Stop => 1 end.
  Definition state_cost (x : wstate (P := P)) : nat := match x with Busy b => 5 + length b | _ => 0 end.
  Definition reply_cost (m : reply (V := V)) : nat := 4 + length (fst m).
  Definition worker_cost (w : worker P V) : nat :=
    list_sum (map msg_cost (w_in w)) + state_cost (w_state w) + list_sum (map reply_cost (w_out w)).
  Definition pc_cost (x : pc (V := V)) : nat :=
    match x with
    | PSave => 2 * k_workers c + 2 | PStop k => 2 * (k_workers c - k) + 1 | PPrime k => 2 * (k_workers c - k) + 4
    | PLoop => 3 | PRecord _ l => 5 + length l | PFinal => 1 | PEnded => 0 | PRaised _ => 0
    end.
  Definition cost (s : sys) : nat :=
    10 * (N - Z.to_nat (s_next s)) + list_sum (map worker_cost (s_workers s)) + pc_cost (s_pc s).
  Lemma sum_app l1 l2 : list_sum (l1 ++ l2) = list_sum l1 + list_sum l2.
  Proof. apply list_sum_app. Qed.
  Lemma put_cost m w : worker_cost (put m w) = worker_cost w + msg_cost m.
  Proof. unfold worker_cost, put. cbn [w_in w_state w_out]. rewrite map_app, sum_app. cbn. lia. Qed.
  Lemma send_cost k m s : 10 * (N - Z.to_nat (s_next (send k m s))) + list_sum (map worker_cost (s_workers (send k m s))) <=
    10 * (N - Z.to_nat (s_next s)) + list_sum (map worker_cost (s_workers s)) + msg_cost m.
  Proof.
    unfold send. destruct (nth_error (s_workers s) k) as [w|] eqn:E; [|lia]. cbn [s_next s_workers].
    pose proof (sum_upd worker_cost _ _ _ E (put m w)) as H. rewrite put_cost in H. unfold put in H. lia.
  Qed.
  Lemma dispatch_cost k s : in_range s ->
    10 * (N - Z.to_nat (s_next (dispatch c todo k s))) + list_sum (map worker_cost (s_workers (dispatch c todo k s))) <=
    10 * (N - Z.to_nat (s_next s)) + list_sum (map worker_cost (s_workers s)) + 1.
  Proof.
    intros R. destruct (nth_error (s_workers s) k) as [w|] eqn:W.
    - destruct R as (m & E & L). destruct (dispatch_cases k s m w E L W) as (_ & [(-> & X & Y & _)|(m' & b & H1 & L' & X & _ & Lb & _ & Y & _)]).
      + rewrite X, Y. pose proof (sum_upd worker_cost _ _ _ W (put Stop w)) as H. rewrite put_cost in H. cbn [msg_cost] in H. lia.
      + rewrite X, Y, E. rewrite !Nat2Z.id. pose proof (sum_upd worker_cost _ _ _ W (put (Batch b) w)) as H. rewrite put_cost in H.
        cbn [msg_cost] in H. rewrite Lb in H. lia.
    - destruct (dispatch_none k s W R) as (_ & Y & _ & Z). rewrite Y. destruct R as (m & E & L). lia.
  Qed.
  Lemma act_cost x s s' : in_range s -> act x s = Some s' -> cost s' < cost s.
  Proof.
    intros R. unfold cost. destruct x as [|k|k]; cbn [MpiModel.act].
    - unfold master_step. destruct (s_pc s) as [|k|k| |k [|[i r] l]| | |e] eqn:Epc; try discriminate.
      + intros H. apply Some_inj in H. subst. unfold finish. destruct (save_final _ _); cbn [s_pc s_next s_workers set_pc pc_cost]; lia.
      + intros H. apply Some_inj in H. subst. destruct (Nat.ltb_spec k (k_workers c)); cbn [s_pc s_next s_workers set_pc pc_cost]; [|lia].
        pose proof (send_cost k Stop s). cbn [msg_cost] in *. lia.
      + intros H. apply Some_inj in H. subst. destruct (Nat.ltb_spec k (k_workers c)); cbn [s_pc s_next s_workers set_pc pc_cost]; [|lia].
        pose proof (dispatch_cost k s R). lia.
      + destruct (s_completed s <? N); [discriminate|]. intros H. apply Some_inj in H. subst. cbn [s_pc s_next s_workers set_pc pc_cost]. lia.
      + intros H. apply Some_inj in H. subst. cbn [s_pc s_next s_workers set_pc pc_cost length].
        pose proof (dispatch_cost k s R). lia.
      + intros H. apply Some_inj in H. subst. unfold record_one. destruct (pos_of _ _); cbn [s_pc s_next s_workers set_pc pc_cost length]; lia.
      + intros H. apply Some_inj in H. subst. unfold finish. destruct (save_final _ _); cbn [s_pc s_next s_workers set_pc pc_cost]; lia.
    - unfold receive. destruct (s_pc s) eqn:Epc; try discriminate. destruct (nth_error (s_workers s) k) as [w|] eqn:W; [|discriminate].
      destruct (w_out w) as [|m ms] eqn:O; [discriminate|]. destruct (_ <? _); [|discriminate]. intros H. apply Some_inj in H. subst.
      cbn [s_pc s_next s_workers set_pc set_worker pc_cost].
      pose proof (sum_upd worker_cost _ _ _ W {| w_in := w_in w; w_state := w_state w; w_out := ms |}) as H.
      unfold worker_cost at 2 4 in H. cbn [w_in w_state w_out] in H. rewrite O in H. cbn [map] in H.
      change (list_sum (reply_cost m :: map reply_cost ms)) with (reply_cost m + list_sum (map reply_cost ms)) in H.
      unfold reply_cost at 1 in H. rewrite combine_length. lia.
    - unfold worker_step. destruct (nth_error (s_workers s) k) as [w|] eqn:W; [|discriminate].
      destruct (w_state w) as [|b|] eqn:S; destruct (w_in w) as [|[b'|] ms] eqn:I; try discriminate; intros H; apply Some_inj in H; subst;
      cbn [s_pc s_next s_workers set_pc set_worker pc_cost];
      (match goal with |- context [upd k ?z (s_workers s)] => pose proof (sum_upd worker_cost _ _ _ W z) as H end);
      unfold worker_cost at 2 4 in H; cbn [w_in w_state w_out] in H; rewrite I, S in H; rewrite ?map_app, ?sum_app in H;
      unfold reply_cost in H; cbn [map list_sum fold_right msg_cost state_cost fst] in H; rewrite ?map_length in H; unfold list_sum in H;
      cbn [fold_right] in H; unfold list_sum; lia.
  Qed.
  Lemma run_cost l : forall s s', in_range s -> run l s = Some s' -> length l + cost s' <= cost s.
  Proof.
    induction l as [|x l IH]; intros s s' R H; cbn in H; [apply Some_inj in H; subst; cbn; lia|].
    destruct (act x s) as [s1|] eqn:E; [|discriminate]. pose proof (act_cost x s s1 R E).
    pose proof (IH s1 s' (act_range x s s1 R E) H). change (length (x :: l)) with (S (length l)). lia.
  Qed.
End Run.
