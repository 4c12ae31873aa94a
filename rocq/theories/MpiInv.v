(** The main invariant of the distributed run. *)
From Verif Require Import Base BaseLemmas PostModel MpiModel MpiSpec MpiLemmas MpiRun.
From Coq Require Import Lia Permutation.
Open Scope list_scope.
Open Scope nat_scope.

Section Inv.
  Context {P V : Type} (work : Z -> P -> presult V) (c : config P) (todo : list (nat * Z * P)).
  Notation sys := (sys P V).
  Notation run := (run work c todo).
  Notation act := (act work c todo).
  Notation N := (length todo).
  Notation T := (extract todo).
  Hypothesis batch_pos : (1 <= k_batch c)%Z.
  Hypothesis known : forall i p, In (i, p) T -> exists j, pos_of (k_rows c) i = Some j.

  (** What a worker is doing. *)
  Inductive phase := Idle | Sent (b : list (Z * P)) | Working (b : list (Z * P)) | Done (b : list (Z * P)) | Told | Off.
  Definition answer (b : list (Z * P)) : reply (V := V) := (map fst b, map (fun x => work (fst x) (snd x)) b).
  Definition shape (a : phase) : worker P V :=
    match a with
    | Idle => {| w_in := []; w_state := Waiting; w_out := [] |}
    | Sent b => {| w_in := [Batch b]; w_state := Waiting; w_out := [] |}
    | Working b => {| w_in := []; w_state := Busy b; w_out := [] |}
    | Done b => {| w_in := []; w_state := Waiting; w_out := [answer b] |}
    | Told => {| w_in := [Stop]; w_state := Waiting; w_out := [] |}
    | Off => {| w_in := []; w_state := Stopped; w_out := [] |}
    end.
  Definition holds (a : phase) : list (Z * P) := match a with Sent b | Working b | Done b => b | _ => [] end.
  Definition finished (a : phase) : list (Z * P) := match a with Done b => b | _ => [] end.
  Definition ending (a : phase) : list (msg P) := match a with Told | Off => [Stop] | _ => [] end.
  Definition fits (b : list (Z * P)) : Prop := b <> [] /\ (Z.of_nat (length b) <= k_batch c)%Z.
  Definition good (m : nat) (a : phase) : Prop :=
    match a with Sent b | Working b | Done b => fits b | Told | Off => m = N | Idle => True end.
  Definition at_pc (x : pc) (ph : list phase) (rest : list (Z * P)) (completed : nat) (results : list (option (presult V))) : Prop :=
    match x with
    | PSave => N = 0 /\ rest = [] /\ forall a, In a ph -> a = Idle
    | PStop k => N = 0 /\ rest = [] /\ forall j a, nth_error ph j = Some a -> (a = Idle <-> k <= j)
    | PPrime k => rest = [] /\ forall j a, nth_error ph j = Some a -> (a = Idle <-> k <= j)
    | PLoop => rest = [] /\ forall a, In a ph -> a <> Idle
    | PFinal | PEnded => rest = [] /\ N <= completed /\ forall a, In a ph -> a <> Idle
    | PRecord k l => l = map (fun x => (fst x, work (fst x) (snd x))) rest /\ (Z.of_nat (length rest) <= k_batch c)%Z /\ k < length ph /\
                     forall j a, nth_error ph j = Some a -> (a = Idle <-> j = k)
    | PRaised _ => somes results = []
    end.
  (** There is a result at the position of label i. *)
  Definition filled (results : list (option (presult V))) (i : Z) : Prop :=
    exists j r, pos_of (k_rows c) i = Some j /\ nth_error results j = Some (Some r).
  Record inv (s : sys) (ph : list phase) (rec rest : list (Z * P)) (m : nat) : Prop := {
    i_workers : s_workers s = map shape ph;
    i_number : length ph = k_workers c;
    i_next : s_next s = Z.of_nat m;
    i_range : m <= N;
    i_perm : Permutation (firstn m T) (rec ++ rest ++ flat_map holds ph);
    i_completed : s_completed s = length rec;
    i_good : forall j a, nth_error ph j = Some a -> good m a;
    i_pc : at_pc (s_pc s) ph rest (s_completed s) (s_results s);
    i_sent : concat (map batch_of (s_sent s)) = firstn m T;
    i_told : forall k a, nth_error ph k = Some a -> exists l, to_worker k (s_sent s) = map Batch l ++ ending a;
    i_computed : Permutation (s_computed s) (rec ++ rest ++ flat_map finished ph);
    i_len : length (s_results s) = length (k_rows c);
    i_cover : forall i p, In (i, p) rec -> filled (s_results s) i;
    i_sizes : forall b, In (Batch b) (map snd (s_sent s)) -> fits b
  }.
  Definition Inv (s : sys) : Prop := exists ph rec rest m, inv s ph rec rest m.

  Lemma good_mono m m' a : m <= m' -> m' <= N -> good m a -> good m' a.
  Proof. destruct a; cbn; auto; lia. Qed.
  Lemma to_worker_app k l1 l2 : to_worker k (l1 ++ l2) = to_worker k l1 ++ to_worker (P := P) k l2.
  Proof. unfold to_worker. rewrite filter_app, map_app. reflexivity. Qed.
  Lemma to_worker_one k j m : to_worker k [(j, m)] = (if Nat.eqb j k then [m] else [] : list (msg P)).
  Proof. unfold to_worker. cbn. destruct (Nat.eqb j k); reflexivity. Qed.
  Lemma T_length : length T = N.
  Proof. unfold extract. apply map_length. Qed.

  (** Sending the next message to an idle worker. *)
  Lemma dispatch_inv k s ph rec rest m pc' : inv s ph rec rest m -> nth_error ph k = Some Idle ->
    (forall a, a <> Idle -> at_pc pc' (upd k a ph) rest (s_completed s) (s_results s)) ->
    Inv (set_pc pc' (dispatch c todo k s)).
  Proof.
    intros I K Hpc. destruct I as [Iw In_ Inx Ir Ip Ic Ig Ipc Is It Icm Il Iv Iz].
    assert (W : nth_error (s_workers s) k = Some (shape Idle)) by (rewrite Iw; apply map_nth_error; exact K).
    assert (Kl : k < length ph) by (apply nth_error_Some; rewrite K; discriminate).
    destruct (dispatch_cases c todo batch_pos k s m (shape Idle) Inx Ir W) as ((F1 & F2 & F3 & F4 & F5 & F6 & F7) & [(-> & X & Y & Z)|(m' & b & H1 & L' & X & Hb & Lb & Bb & Y & Z)]).
    - exists (upd k Told ph), rec, rest, N.
      destruct (flat_upd holds ph k Idle K) as (r1 & P1 & P2). destruct (flat_upd finished ph k Idle K) as (r2 & P3 & P4).
      constructor; cbn [set_pc s_workers s_next s_completed s_pc s_results s_sent s_computed].
      + rewrite Y, Iw. change (put Stop (shape Idle)) with (shape Told). apply upd_map.
      + rewrite upd_length. exact In_.
      + rewrite X. exact Inx.
      + lia.
      + rewrite Ip, P1, P2. apply Permutation_refl.
      + rewrite F4. exact Ic.
      + intros j a. rewrite nth_error_upd. destruct (Nat.eqb_spec j k).
        * destruct (nth_error ph j); [|discriminate]. intros E. apply Some_inj in E. subst a. reflexivity.
        * apply Ig.
      + rewrite F4, F2. apply Hpc. discriminate.
      + rewrite Z, map_app, concat_app, Is. cbn. apply app_nil_r.
      + intros j a. rewrite nth_error_upd, Z, to_worker_app, to_worker_one. destruct (Nat.eqb_spec j k) as [->|D].
        * rewrite K, Nat.eqb_refl. intros E. apply Some_inj in E. subst a. destruct (It k Idle K) as (l & E). exists l. rewrite E. cbn. rewrite app_nil_r. reflexivity.
        * intros E. destruct (It j a E) as (l & E'). exists l. rewrite E'. destruct (Nat.eqb_spec k j); [congruence|]. apply app_nil_r.
      + rewrite F7, Icm, P3, P4. apply Permutation_refl.
      + rewrite F2. exact Il.
      + rewrite F2. exact Iv.
      + intros b. rewrite Z, map_app. intros B. apply in_app_or in B. destruct B as [B|[B|[]]]; [auto|discriminate].
    - exists (upd k (Sent b) ph), rec, rest, m'.
      destruct (flat_upd holds ph k Idle K) as (r1 & P1 & P2). destruct (flat_upd finished ph k Idle K) as (r2 & P3 & P4).
      constructor; cbn [set_pc s_workers s_next s_completed s_pc s_results s_sent s_computed].
      + rewrite Y, Iw. change (put (Batch b) (shape Idle)) with (shape (Sent b)). apply upd_map.
      + rewrite upd_length. exact In_.
      + exact X.
      + lia.
      + rewrite (firstn_slice T m m'), <- Hb by lia. rewrite Ip, P1, P2. cbn [holds app].
        rewrite <- !app_assoc. apply Permutation_app_head. apply Permutation_app_head. apply Permutation_app_comm.
      + rewrite F4. exact Ic.
      + intros j a. rewrite nth_error_upd. destruct (Nat.eqb_spec j k).
        * destruct (nth_error ph j); [|discriminate]. intros E. apply Some_inj in E. subst a. cbn. unfold fits. split; [intros ->; cbn in Lb; lia|lia].
        * intros E. specialize (Ig j a E). exact (good_mono m m' a (Nat.lt_le_incl _ _ H1) L' Ig).
      + rewrite F4, F2. apply Hpc. discriminate.
      + rewrite Z, map_app, concat_app, Is. cbn. rewrite app_nil_r. rewrite (firstn_slice T m m'), <- Hb by lia. reflexivity.
      + intros j a. rewrite nth_error_upd, Z, to_worker_app, to_worker_one. destruct (Nat.eqb_spec j k) as [->|D].
        * rewrite K, Nat.eqb_refl. intros E. apply Some_inj in E. subst a. destruct (It k Idle K) as (l & E). exists (l ++ [b]). rewrite E. cbn.
          rewrite map_app. cbn. rewrite !app_nil_r. reflexivity.
        * intros E. destruct (It j a E) as (l & E'). exists l. rewrite E'. destruct (Nat.eqb_spec k j); [congruence|]. apply app_nil_r.
      + rewrite F7, Icm, P3, P4. apply Permutation_refl.
      + rewrite F2. exact Il.
      + rewrite F2. exact Iv.
      + intros b'. rewrite Z, map_app. intros B. apply in_app_or in B. destruct B as [B|[B|[]]]; [auto|]. cbn in B. injection B as <-.
        unfold fits. split; [intros ->; cbn in Lb; lia|lia].
  Qed.
  (** Sending STOP to an idle worker when there is nothing to process. *)
  Lemma stop_inv k s ph rec rest m pc' : inv s ph rec rest m -> nth_error ph k = Some Idle -> m = N ->
    (at_pc pc' (upd k Told ph) rest (s_completed s) (s_results s)) ->
    Inv (set_pc pc' (send k Stop s)).
  Proof.
    intros I K -> Hpc. destruct I as [Iw In_ Inx Ir Ip Ic Ig Ipc Is It Icm Il Iv Iz].
    assert (W : nth_error (s_workers s) k = Some (shape Idle)) by (rewrite Iw; apply map_nth_error; exact K).
    unfold send. rewrite W. exists (upd k Told ph), rec, rest, N.
    destruct (flat_upd holds ph k Idle K) as (r1 & P1 & P2). destruct (flat_upd finished ph k Idle K) as (r2 & P3 & P4).
    constructor; cbn [set_pc s_workers s_next s_completed s_pc s_results s_sent s_computed].
    + rewrite Iw. change {| w_in := _; w_state := _; w_out := _ |} with (shape Told). apply upd_map.
    + rewrite upd_length. exact In_.
    + exact Inx.
    + lia.
    + rewrite Ip, P1, P2. apply Permutation_refl.
    + exact Ic.
    + intros j a. rewrite nth_error_upd. destruct (Nat.eqb_spec j k).
      * destruct (nth_error ph j); [|discriminate]. intros E. apply Some_inj in E. subst a. reflexivity.
      * apply Ig.
    + exact Hpc.
    + rewrite map_app, concat_app, Is. cbn. apply app_nil_r.
    + intros j a. rewrite nth_error_upd, to_worker_app, to_worker_one. destruct (Nat.eqb_spec j k) as [->|D].
      * rewrite K, Nat.eqb_refl. intros E. apply Some_inj in E. subst a. destruct (It k Idle K) as (l & E). exists l. rewrite E. cbn. rewrite app_nil_r. reflexivity.
      * intros E. destruct (It j a E) as (l & E'). exists l. rewrite E'. destruct (Nat.eqb_spec k j); [congruence|]. apply app_nil_r.
    + rewrite Icm, P3, P4. apply Permutation_refl.
    + exact Il.
    + exact Iv.
    + intros b. rewrite map_app. intros B. apply in_app_or in B. destruct B as [B|[B|[]]]; [auto|discriminate].
  Qed.

  (** A change of one worker that sends nothing. *)
  Lemma worker_inv k s ph rec rest m a b pc' rest' computed' :
    inv s ph rec rest m -> nth_error ph k = Some a ->
    Permutation (rec ++ rest' ++ holds b) (rec ++ rest ++ holds a) ->
    good m b -> ending b = ending a ->
    at_pc pc' (upd k b ph) rest' (s_completed s) (s_results s) ->
    (forall r, Permutation (s_computed s) (rec ++ rest ++ finished a ++ r) -> Permutation computed' (rec ++ rest' ++ finished b ++ r)) ->
    Inv {| s_pc := pc'; s_next := s_next s; s_results := s_results s; s_since := s_since s; s_completed := s_completed s; s_file := s_file s;
           s_table := s_table s; s_workers := upd k (shape b) (s_workers s); s_sent := s_sent s; s_computed := computed' |}.
  Proof.
    intros I K Hp Hg He Hpc Hc. destruct I as [Iw In_ Inx Ir Ip Ic Ig Ipc Is It Icm Il Iv Iz].
    exists (upd k b ph), rec, rest', m.
    destruct (flat_upd holds ph k a K) as (r1 & P1 & P2). destruct (flat_upd finished ph k a K) as (r2 & P3 & P4).
    constructor; cbn [set_pc s_workers s_next s_completed s_pc s_results s_sent s_computed].
    + rewrite Iw. apply upd_map.
    + rewrite upd_length. exact In_.
    + exact Inx.
    + exact Ir.
    + rewrite Ip, P1, P2. rewrite !app_assoc. apply Permutation_app_tail. rewrite <- !app_assoc. symmetry. exact Hp.
    + exact Ic.
    + intros j x. rewrite nth_error_upd. destruct (Nat.eqb_spec j k).
      * destruct (nth_error ph j); [|discriminate]. intros E. apply Some_inj in E. subst x. exact Hg.
      * apply Ig.
    + exact Hpc.
    + exact Is.
    + intros j x. rewrite nth_error_upd. destruct (Nat.eqb_spec j k) as [->|D]; [|apply It].
      rewrite K. intros E. apply Some_inj in E. subst x. destruct (It k a K) as (l & E). exists l. rewrite He. exact E.
    + rewrite P4. apply Hc. rewrite Icm, P3. apply Permutation_refl.
    + exact Il.
    + exact Iv.
    + exact Iz.
  Qed.
  Lemma same_idle x k a b ph rest n r : nth_error ph k = Some a -> a <> Idle -> b <> Idle -> x <> PSave ->
    at_pc x ph rest n r -> at_pc x (upd k b ph) rest n r.
  Proof.
    intros K A B Hx.
    assert (G : forall Q : nat -> Prop, (forall j y, nth_error ph j = Some y -> (y = Idle <-> Q j)) ->
                (forall j y, nth_error (upd k b ph) j = Some y -> (y = Idle <-> Q j))).
    { intros Q H j y. rewrite nth_error_upd. destruct (Nat.eqb_spec j k) as [->|D]; [|apply H].
      rewrite K. intros E. apply Some_inj in E. subst y. specialize (H k a K). split; intros X; [contradiction|]. apply H in X. contradiction. }
    assert (G' : (forall y, In y ph -> y <> Idle) -> (forall y, In y (upd k b ph) -> y <> Idle)).
    { intros H y Y. apply upd_in in Y. destruct Y as [->|Y]; auto. }
    destruct x as [|q|q| |q l| | |e]; cbn [at_pc]; rewrite ?upd_length.
    - contradiction.
    - intros (A1 & A2 & A3). split; [auto|]. split; [auto|]. exact (G (fun j => q <= j) A3).
    - intros (A2 & A3). split; [auto|]. exact (G (fun j => q <= j) A3).
    - intros (A2 & A3). split; [auto|]. exact (G' A3).
    - intros (A1 & A2 & A3 & A4). split; [auto|]. split; [auto|]. split; [auto|]. exact (G (fun j => j = q) A4).
    - intros (A1 & A2 & A3). split; [auto|]. split; [auto|]. exact (G' A3).
    - intros (A1 & A2 & A3). split; [auto|]. split; [auto|]. exact (G' A3).
    - auto.
  Qed.

  Lemma fill_upd results i j r i0 : length results = length (k_rows c) -> pos_of (k_rows c) i = Some j ->
    (filled results i0 \/ i0 = i) -> filled (upd j (Some r) results) i0.
  Proof.
    intros L Q [(j' & r' & E1 & E2)|X].
    - exists j'. destruct (Nat.eq_dec j' j) as [->|D].
      + exists r. split; [auto|]. apply upd_same. apply nth_error_Some. rewrite E2. discriminate.
      + exists r'. split; [auto|]. rewrite upd_other; auto.
    - subst i0. exists j, r. split; [auto|]. apply upd_same. destruct (pos_of_spec _ _ _ Q) as (p & E). rewrite L. apply nth_error_Some. rewrite E. discriminate.
  Qed.
  Lemma inv_step x s s' : Inv s -> act x s = Some s' -> Inv s'.
  Proof.
    intros (ph & rec & rest & m & I) H.
    pose proof I as [Iw In_ Inx Ir Ip Ic Ig Ipc Is It Icm Il Iv Iz].
    destruct x as [|k|k]; cbn [MpiModel.act] in H.
    - (* the master *)
      unfold master_step in H. destruct (s_pc s) as [|k|k| |k [|[i r] l]| | |e] eqn:Epc; try discriminate; cbn [at_pc] in Ipc.
      + (* PSave *)
        apply Some_inj in H. subst s'. destruct Ipc as (N0 & R0 & A0). unfold finish, save_final. destruct (somes (s_results s)) eqn:So.
        * exists ph, rec, rest, m. constructor; cbn; auto.
        * exists ph, rec, rest, m. constructor; cbn; auto. split; [auto|]. split; [auto|]. intros j a E. split; [lia|]. intros _. apply A0. eapply nth_error_In, E.
      + (* PStop *)
        apply Some_inj in H. subst s'. destruct Ipc as (N0 & R0 & A0). destruct (Nat.ltb_spec k (k_workers c)) as [L|L].
        * destruct (nth_error ph k) as [a|] eqn:K; [|apply nth_error_None in K; lia].
          assert (a = Idle) by (apply (A0 k a K); lia). subst a.
          apply (stop_inv k s ph rec rest m); auto; [lia|]. cbn. split; [auto|]. split; [auto|]. intros j a.
          rewrite nth_error_upd. destruct (Nat.eqb_spec j k) as [->|D].
          -- rewrite K. intros E. apply Some_inj in E. subst a. split; [discriminate|lia].
          -- intros E. rewrite (A0 j a E). lia.
        * exists ph, rec, rest, m. constructor; cbn; auto. split; [auto|]. split; [lia|]. intros a Y. apply In_nth_error in Y. destruct Y as (j & E).
          intros X. apply (A0 j a E) in X. assert (j < length ph) by (apply nth_error_Some; rewrite E; discriminate). lia.
      + (* PPrime *)
        apply Some_inj in H. subst s'. destruct Ipc as (R0 & A0). destruct (Nat.ltb_spec k (k_workers c)) as [L|L].
        * destruct (nth_error ph k) as [a|] eqn:K; [|apply nth_error_None in K; lia].
          assert (a = Idle) by (apply (A0 k a K); lia). subst a.
          apply (dispatch_inv k s ph rec rest m); auto. intros a Ha. cbn. split; [auto|]. intros j y.
          rewrite nth_error_upd. destruct (Nat.eqb_spec j k) as [->|D].
          -- rewrite K. intros E. apply Some_inj in E. subst y. split; [intros X; contradiction|lia].
          -- intros E. rewrite (A0 j y E). lia.
        * exists ph, rec, rest, m. constructor; cbn; auto. split; [auto|]. intros a Y. apply In_nth_error in Y. destruct Y as (j & E).
          intros X. apply (A0 j a E) in X. assert (j < length ph) by (apply nth_error_Some; rewrite E; discriminate). lia.
      + (* PLoop *)
        destruct Ipc as (R0 & A0). destruct (Nat.ltb_spec (s_completed s) N) as [L|L]; [discriminate|]. apply Some_inj in H. subst s'.
        exists ph, rec, rest, m. constructor; cbn; auto.
      + (* PRecord, all recorded *)
        apply Some_inj in H. subst s'. destruct Ipc as (E0 & B0 & K0 & A0). destruct rest as [|y rest]; [|discriminate].
        destruct (nth_error ph k) as [a|] eqn:K; [|apply nth_error_None in K; lia].
        assert (a = Idle) by (apply (A0 k a K); reflexivity). subst a.
        apply (dispatch_inv k s ph rec [] m); auto. intros a Ha. cbn. split; [auto|]. intros y Y. apply In_nth_error in Y. destruct Y as (j & E).
        revert E. rewrite nth_error_upd. destruct (Nat.eqb_spec j k) as [->|D].
        * rewrite K. intros E. apply Some_inj in E. subst y. exact Ha.
        * intros E X. apply (A0 j y E) in X. contradiction.
      + (* PRecord *)
        apply Some_inj in H. subst s'. destruct Ipc as (E0 & B0 & K0 & A0). destruct rest as [|[i' p] rest]; [discriminate|].
        cbn [map fst snd] in E0. injection E0 as -> -> ->.
        assert (Hin : In (i', p) T).
        { rewrite <- (firstn_skipn m T). apply in_or_app. left. rewrite Ip. apply in_or_app. right. left. reflexivity. }
        destruct (known _ _ Hin) as (q & Q). unfold record_one. rewrite Q.
        exists ph, (rec ++ [(i', p)]), rest, m. constructor; cbn; auto.
        * rewrite Ip. rewrite <- !app_assoc. apply Permutation_refl.
        * rewrite app_length, Ic. cbn. lia.
        * split; [auto|]. split; [cbn in B0; lia|]. auto.
        * rewrite Icm. rewrite <- !app_assoc. apply Permutation_refl.
        * rewrite upd_length. exact Il.
        * intros i0 p0 X. apply (fill_upd _ i'); auto. apply in_app_or in X. destruct X as [X|[X|[]]]; [left; eauto|right; congruence].
      + (* PFinal *)
        apply Some_inj in H. subst s'. unfold finish, save_final. destruct (somes (s_results s)) eqn:So.
        * exists ph, rec, rest, m. constructor; cbn; auto.
        * exists ph, rec, rest, m. constructor; cbn; auto.
    - (* receiving *)
      unfold receive in H. destruct (s_pc s) eqn:Epc; try discriminate. destruct Ipc as (R0 & A0).
      destruct (nth_error (s_workers s) k) as [w|] eqn:W; [|discriminate].
      rewrite Iw in W. rewrite nth_error_map in W. destruct (nth_error ph k) as [a|] eqn:K; [|discriminate]. apply Some_inj in W. subst w rest.
      destruct a as [|b|b|b| |]; cbn [shape w_out] in H; try discriminate.
      destruct (s_completed s <? N) eqn:Hc; [|discriminate]. apply Some_inj in H. subst s'.
      change {| w_in := _; w_state := _; w_out := _ |} with (shape Idle).
      apply (worker_inv k s ph rec [] m (Done b) Idle _ b (s_computed s)); auto.
      + cbn. rewrite app_nil_r. apply Permutation_refl.
      + exact Logic.I.
      + cbn. split; [|split; [|split]].
        * clear. induction b as [|[i p] b IH]; cbn; [auto|]. rewrite IH. reflexivity.
        * apply (Ig k _ K).
        * rewrite upd_length. apply nth_error_Some. rewrite K. discriminate.
        * intros j y. rewrite nth_error_upd. destruct (Nat.eqb_spec j k) as [->|D].
          -- rewrite K. intros E. apply Some_inj in E. subst y. split; auto.
          -- intros E. split; intros X; [|contradiction]. subst y. exfalso. apply (A0 Idle); [eapply nth_error_In, E|reflexivity].
    - (* a worker *)
      unfold worker_step in H. destruct (nth_error (s_workers s) k) as [w|] eqn:W; [|discriminate].
      rewrite Iw in W. rewrite nth_error_map in W. destruct (nth_error ph k) as [a|] eqn:K; [|discriminate]. apply Some_inj in W. subst w.
      assert (Hps : a <> Idle -> s_pc s <> PSave).
      { intros A E. rewrite E in Ipc. destruct Ipc as (_ & _ & A0). apply A, A0. eapply nth_error_In, K. }
      destruct a as [|b|b|b| |]; cbn [shape w_state w_in w_out] in H; try discriminate; apply Some_inj in H; subst s'.
      + change {| w_in := _; w_state := _; w_out := _ |} with (shape (Working b)).
        apply (worker_inv k s ph rec rest m (Sent b) (Working b) _ rest (s_computed s)); auto.
        * apply (Ig k _ K).
        * apply (same_idle _ k (Sent b)); auto; try discriminate. apply Hps. discriminate.
      + change {| w_in := []; w_state := Waiting; w_out := _ |} with (shape (Done b)).
        apply (worker_inv k s ph rec rest m (Working b) (Done b) _ rest (s_computed s ++ b)); auto.
        * apply (Ig k _ K).
        * apply (same_idle _ k (Working b)); auto; try discriminate. apply Hps. discriminate.
        * intros r E. rewrite E. cbn [finished app]. rewrite <- !app_assoc. apply Permutation_app_head. apply Permutation_app_head. apply Permutation_app_comm.
      + change {| w_in := _; w_state := _; w_out := _ |} with (shape Off).
        apply (worker_inv k s ph rec rest m Told Off _ rest (s_computed s)); auto.
        * apply (Ig k _ K).
        * apply (same_idle _ k Told); auto; try discriminate. apply Hps. discriminate.
  Qed.
End Inv.
