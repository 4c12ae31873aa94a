(** What a run ends with. *)
From Verif Require Import Base BaseLemmas PostModel MpiModel MpiSpec MpiLemmas MpiRun MpiInv MpiSafe.
From Coq Require Import Lia Permutation.
Open Scope list_scope.
Open Scope nat_scope.

Lemma filter_nil {A} (q : A -> bool) l : (forall x, In x l -> q x = false) -> filter q l = [].
Proof. induction l as [|a l IH]; intros H; cbn; [auto|]. rewrite (H a (or_introl eq_refl)). apply IH. intros; apply H; right; auto. Qed.
Lemma somes_app {A} (l1 l2 : list (option A)) : somes (l1 ++ l2) = somes l1 ++ somes l2.
Proof. induction l1 as [|[a|] l1 IH]; cbn; [auto| |auto]. rewrite IH. reflexivity. Qed.

Section Final.
  Context {P V : Type} (work : Z -> P -> presult V) (post : list (Z * P)).
  Hypothesis post_ok : consistent post.
  Hypothesis work_ok : labelled work.
  Context (c : config P).
  Hypothesis rows_ok : incl (k_rows c) post.
  Notation rows := (k_rows c).
  Notation placed := (placed work post c).
  Notation filled := (filled (V := V) c).

  Lemma one_match results i : placed results -> filled results i ->
    exists p, In (i, p) rows /\ filter (fun r => Z.eqb (pr_index r) i) (somes results) = [work i p].
  Proof.
    intros H (j & r & Q & E). destruct (placed_row work post post_ok c rows_ok results j r H E) as (p & R & W).
    destruct H as (L & H). destruct (H j r E) as (Q' & _).
    destruct (pos_of_spec _ _ _ Q) as (p' & R'). rewrite R in R'. apply Some_inj in R'. injection R' as Ei Ep. subst p'.
    exists p. split; [rewrite <- Ei; eapply nth_error_In, R|].
    destruct (nth_error_split _ _ E) as (l1 & l2 & -> & Lj).
    rewrite somes_app, filter_app. cbn [somes filter]. rewrite Ei, Z.eqb_refl.
    rewrite (filter_nil _ (somes l1)), (filter_nil _ (somes l2)); [cbn; rewrite W at 1; rewrite Ei; reflexivity| |].
    - intros x X. apply somes_in, In_nth_error in X. destruct X as (k & K). apply Z.eqb_neq. intros D.
      assert (Q2 : pos_of rows (pr_index x) = Some (length l1 + S k)).
      { apply H. rewrite nth_error_app2 by lia. replace (length l1 + S k - length l1) with (S k) by lia. exact K. }
      rewrite D, Q in Q2. apply Some_inj in Q2. lia.
    - intros x X. apply somes_in, In_nth_error in X. destruct X as (k & K). apply Z.eqb_neq. intros D.
      assert (Kl : k < length l1) by (apply nth_error_Some; rewrite K; discriminate).
      assert (Q2 : pos_of rows (pr_index x) = Some k) by (apply H; rewrite nth_error_app1 by exact Kl; exact K).
      rewrite D, Q in Q2. apply Some_inj in Q2. lia.
  Qed.
  Lemma final_table results : rows <> [] -> placed results -> (forall i p, In (i, p) rows -> filled results i) ->
    save_final rows results = Ok (full_table work rows).
  Proof.
    intros Hr H F. unfold save_final. destruct (somes results) as [|r0 rs] eqn:Es.
    - exfalso. destruct rows as [|[i p] l] eqn:El; [auto|]. assert (Fi : filled results i) by (apply (F i p); left; reflexivity).
      destruct Fi as (j & r & _ & E). apply nth_error_In, somes_in in E. rewrite Es in E. exact E.
    - rewrite <- Es. f_equal. unfold full_table.
      assert (G : forall l, incl l rows -> flat_map (merge_row (somes results)) l = map (fun x => (x, Some (work (fst x) (snd x)))) l).
      { induction l as [|[i p] l IH]; intros I; cbn [flat_map map]; [auto|]. rewrite IH by (intros x X; apply I; right; auto).
        destruct (one_match results i H) as (q & Q & E); [apply (F i p), I; left; reflexivity|].
        unfold merge_row at 1. cbn [fst snd]. rewrite E. cbn. rewrite (post_ok i p q); auto. apply rows_ok, I. left. reflexivity. }
      apply G. intros x X; exact X.
  Qed.

  Lemma replay_filled l : forall results i, length results = length rows ->
    (filled results i \/ (In i (map pr_index l) /\ exists j, pos_of rows i = Some j)) -> filled (replay rows l results) i.
  Proof.
    induction l as [|r l IH]; intros results i L H; cbn; [destruct H as [H|(X & _)]; [auto|destruct X]|].
    destruct (pos_of rows (pr_index r)) as [j|] eqn:E.
    - apply IH; [rewrite upd_length; exact L|]. destruct H as [H|([X|X] & Y)].
      + left. apply (fill_upd c results (pr_index r)); auto.
      + left. apply (fill_upd c results (pr_index r)); auto.
      + auto.
    - apply IH; [exact L|]. destruct H as [H|([X|X] & Y)]; [auto| |auto]. exfalso. subst i. destruct Y as (j & Y). congruence.
  Qed.
  Lemma initial_filled (f : file V) ck i p : load_checkpoint f = Ok ck -> In (i, p) rows -> In i (map pr_index (file_rows f)) ->
    filled (initial_results rows ck) i.
  Proof.
    intros E I X. unfold initial_results. apply replay_filled; [apply map_length|]. right. split; [|exact (pos_of_in _ _ _ I)].
    destruct f; cbn in E; try discriminate; apply Ok_inj in E; subst ck; cbn in *; auto.
  Qed.

  (** *** The invariant at the start *)
  Section Start.
    Context (f : file V).
    Hypothesis batch_pos : (1 <= k_batch c)%Z.
    Hypothesis file_ok : right_file work post f.
    Notation todo := (todo_of c f).
    Notation N := (length todo).
    Notation T := (extract todo).
    Lemma known i p : In (i, p) T -> exists j, pos_of rows i = Some j.
    Proof. intros H. apply (pos_of_in rows i p). exact (todo_rows c f i p H). Qed.
    Lemma T_pending : T = pending c f.
    Proof. rewrite todo_file. destruct f; auto. destruct file_ok as (X & _). contradiction X. reflexivity. Qed.
    Lemma loaded : exists ck, load_checkpoint f = Ok ck /\ todo = to_process rows ck /\
      boot c f = {| s_pc := match to_process rows ck with [] => PSave | _ => PPrime 0 end; s_next := 0;
                    s_results := initial_results rows ck; s_since := 0; s_completed := 0; s_file := f; s_table := None;
                    s_workers := map (fun _ => idle) (seq 0 (k_workers c)); s_sent := []; s_computed := [] |}.
    Proof.
      unfold todo_of, boot. destruct (load_checkpoint f) as [ck|e] eqn:E; [eauto|].
      destruct file_ok as (X & _). destruct f; cbn in E; try discriminate. contradiction X. reflexivity.
    Qed.
    Lemma boot_inv : Inv work c todo (boot c f).
    Proof.
      destruct loaded as (ck & E & Et & ->). exists (map (fun _ => Idle) (seq 0 (k_workers c))), [], [], 0.
      assert (A : forall a : phase (P := P), In a (map (fun _ => Idle) (seq 0 (k_workers c))) -> a = Idle).
      { intros a H. apply in_map_iff in H. destruct H as (_ & <- & _). reflexivity. }
      assert (Fh : forall (g : phase (P := P) -> list (Z * P)) (n : list nat), g Idle = [] -> flat_map g (map (fun _ => Idle) n) = []).
      { intros g n G. induction n; cbn; [auto|]. rewrite G. exact IHn. }
      constructor; cbn; auto.
      - rewrite map_map. reflexivity.
      - rewrite map_length, seq_length. reflexivity.
      - lia.
      - rewrite Fh by reflexivity. apply Permutation_refl.
      - intros j a H. apply nth_error_In in H. rewrite (A a H). exact I.
      - destruct (to_process rows ck) eqn:Et'.
        + cbn. rewrite Et. auto.
        + cbn. split; [auto|]. intros j a H. apply nth_error_In in H. rewrite (A a H). split; [lia|auto].
      - intros k a H. apply nth_error_In in H. rewrite (A a H). exists []. reflexivity.
      - rewrite Fh by reflexivity. apply Permutation_refl.
      - apply (initial_placed work post c f ck file_ok E).
      - tauto.
      - tauto.
    Qed.
    Lemma boot_range : in_range todo (boot c f).
    Proof. destruct loaded as (ck & E & Et & ->). exists 0. cbn. split; [auto|lia]. Qed.

    (** Results that were loaded stay. *)
    Definition keeps (s : sys P V) : Prop := forall i, filled (s_results (boot c f)) i -> filled (s_results s) i.
    Lemma keeps_step x s s' : Inv work c todo s -> keeps s -> act work c todo x s = Some s' -> keeps s'.
    Proof.
      intros (ph & rec & rest & m & I) K H i B. specialize (K i B). pose proof (i_len _ _ _ _ _ _ _ _ I) as L.
      destruct x as [|k|k]; cbn in H.
      - unfold master_step in H. destruct (s_pc s) as [|k|k| |k [|[i0 r] l]| | |e] eqn:Epc; try discriminate.
        + apply Some_inj in H. subst. unfold finish. destruct (save_final _ _); exact K.
        + apply Some_inj in H. subst. destruct (k <? k_workers c); [|exact K]. unfold send. destruct (nth_error _ _); exact K.
        + apply Some_inj in H. subst. destruct (k <? k_workers c); [|exact K]. unfold dispatch, send. destruct (_ <? _)%Z; destruct (nth_error _ _); exact K.
        + destruct (_ <? _); [discriminate|]. apply Some_inj in H. subst. exact K.
        + apply Some_inj in H. subst. unfold dispatch, send. destruct (_ <? _)%Z; destruct (nth_error _ _); exact K.
        + apply Some_inj in H. subst. unfold record_one. destruct (pos_of rows i0) as [j|] eqn:Q; [|exact K]. cbn.
          apply (fill_upd c _ i0); auto.
        + apply Some_inj in H. subst. unfold finish. destruct (save_final _ _); exact K.
      - unfold receive in H. destruct (s_pc s); try discriminate. destruct (nth_error _ _) as [w|]; [|discriminate].
        destruct (w_out w); [discriminate|]. destruct (_ <? _); [|discriminate]. apply Some_inj in H. subst. exact K.
      - unfold worker_step in H. destruct (nth_error _ _) as [w|]; [|discriminate].
        destruct (w_state w); destruct (w_in w) as [|[b|] ms]; try discriminate; apply Some_inj in H; subst; exact K.
    Qed.
    Definition closing (x : pc (V := V)) : Prop := match x with PSave | PStop _ | PFinal | PEnded => True | _ => False end.
    Lemma complete s ph rec rest m : inv work c todo s ph rec rest m -> N <= s_completed s ->
      m = N /\ rest = [] /\ flat_map holds ph = [] /\ Permutation T rec.
    Proof.
      intros I L. destruct I as [Iw In_ Inx Ir Ip Ic Ig Ipc Is It Icm Il Iv Iz].
      pose proof (Permutation_length Ip) as E. rewrite firstn_length, (T_length todo), !app_length in E.
      assert (Em : m = N) by lia. subst m.
      destruct rest; [|cbn in E; lia]. destruct (flat_map holds ph); [|cbn in E; lia].
      split; [auto|]. split; [auto|]. split; [auto|]. rewrite <- (firstn_all2 T (n := N)) by (rewrite (T_length todo); lia).
      rewrite Ip. rewrite !app_nil_r. apply Permutation_refl.
    Qed.
    Lemma all_filled s : Inv work c todo s -> keeps s -> closing (s_pc s) -> forall i p, In (i, p) rows -> filled (s_results s) i.
    Proof.
      intros (ph & rec & rest & m & I) K C i p R.
      assert (L : N <= s_completed s).
      { destruct I as [Iw In_ Inx Ir Ip Ic Ig Ipc Is It Icm Il Iv Iz]. destruct (s_pc s); cbn in *; try contradiction; try lia; destruct Ipc as (A & B & _); lia. }
      destruct (complete s ph rec rest m I L) as (Em & Er & Eh & Pr).
      destruct (in_dec Z.eq_dec i (map pr_index (file_rows f))) as [D|D].
      - apply K. destruct loaded as (ck & E & Et & ->). cbn [s_results]. exact (initial_filled f ck i p E R D).
      - apply (i_cover _ _ _ _ _ _ _ _ I i p). apply (Permutation_in _ Pr). rewrite T_pending. apply pending_in. auto.
    Qed.

    Definition tabled (s : sys P V) : Prop :=
      match s_pc s with
      | PStop _ | PEnded => exists t, s_table s = Some t /\ save_final rows (s_results s) = Ok t
      | PRaised _ => rows = []
      | _ => True
      end.
    Definition whole (s : sys P V) : Prop := Inv work c todo s /\ keeps s /\ tabled s /\ safe work post c todo s.
    Lemma whole_step x s s' : whole s -> act work c todo x s = Some s' -> whole s'.
    Proof.
      intros (I & K & Tb & S) H. split; [eapply inv_step; eauto; exact known|]. split; [eapply keeps_step; eauto|].
      split; [|eapply safe_step; eauto; exact (fun i p => todo_rows c f i p)].
      assert (Fin : closing (s_pc s) -> rows <> [] -> exists t, save_final rows (s_results s) = Ok t).
      { intros C Hr. exists (full_table work rows). apply final_table; auto; [apply S|]. apply all_filled; auto. }
      assert (Fin' : forall x, closing (s_pc s) -> (match x with PStop _ | PEnded => True | _ => False end) -> tabled (finish c x s)).
      { intros y C Hy. unfold finish. destruct (save_final rows (s_results s)) as [t|e] eqn:E.
        - unfold tabled. cbn. destruct y; try contradiction; eauto.
        - unfold tabled. cbn. destruct rows eqn:Er; [auto|]. destruct Fin as (t & Et); [auto|discriminate|congruence]. }
      destruct x as [|k|k]; cbn in H.
      - unfold master_step in H. unfold tabled in Tb. destruct (s_pc s) as [|k|k| |k [|[i0 r] l]| | |e] eqn:Epc; try discriminate.
        + apply Some_inj in H. subst. apply Fin'; exact Logic.I.
        + apply Some_inj in H. subst. destruct (k <? k_workers c); [|exact Tb]. unfold send. destruct (nth_error _ _); exact Tb.
        + apply Some_inj in H. subst. destruct (k <? k_workers c); exact Logic.I.
        + destruct (_ <? _); [discriminate|]. apply Some_inj in H. subst. exact Logic.I.
        + apply Some_inj in H. subst. exact Logic.I.
        + apply Some_inj in H. subst. unfold record_one. destruct (pos_of rows i0) as [j|] eqn:Q; [exact Logic.I|]. exfalso.
          destruct S as [_ S2 _ _ _]. rewrite Epc in S2. destruct S2 as (b & B & E). destruct b as [|[i' p] b]; [discriminate|]. cbn in E. injection E as -> _ _.
          destruct (known i' p) as (j & J); [apply B; left; reflexivity|]. congruence.
        + apply Some_inj in H. subst. apply Fin'; exact Logic.I.
      - unfold receive in H. destruct (s_pc s); try discriminate. destruct (nth_error _ _) as [w|]; [|discriminate].
        destruct (w_out w); [discriminate|]. destruct (_ <? _); [|discriminate]. apply Some_inj in H. subst. exact Logic.I.
      - unfold worker_step in H. destruct (nth_error _ _) as [w|]; [|discriminate].
        destruct (w_state w); destruct (w_in w) as [|[b|] ms]; try discriminate; apply Some_inj in H; subst; exact Tb.
    Qed.
    Lemma boot_whole : whole (boot c f).
    Proof.
      split; [exact boot_inv|]. split; [intros i H; exact H|]. split; [|apply boot_safe; auto].
      destruct loaded as (ck & E & Et & ->). unfold tabled. cbn. destruct (to_process rows ck); exact I.
    Qed.
    Lemma reached_whole s : reached work c f s -> whole s.
    Proof. intros (l & R). eapply (run_invariant work c todo whole whole_step); [exact boot_whole|exact R]. Qed.

    (** *** Consequences *)
    Lemma ended_table s : rows <> [] -> reached work c f s -> s_pc s = PEnded -> s_table s = Some (full_table work rows).
    Proof.
      intros Hr R E. destruct (reached_whole s R) as (I & K & Tb & S). unfold tabled in Tb. rewrite E in Tb. destruct Tb as (t & Et & Es).
      rewrite Et. f_equal. assert (X : save_final rows (s_results s) = Ok (full_table work rows)).
      { apply final_table; auto; [apply S|]. apply all_filled; auto. rewrite E. exact Logic.I. }
      rewrite X in Es. apply Ok_inj in Es. auto.
    Qed.
    Lemma bounded_run l s : run work c todo l (boot c f) = Some s -> length l <= 10 * length (pending c f) + 2 * k_workers c + 4.
    Proof.
      intros R. pose proof (run_cost work c todo batch_pos l _ _ boot_range R) as H.
      assert (B : cost c todo (boot c f) <= 10 * N + 2 * k_workers c + 4).
      { destruct loaded as (ck & E & Et & ->). unfold cost. cbn [s_next s_workers s_pc].
        assert (Z0 : forall n : list nat, list_sum (map worker_cost (map (fun _ => idle (P := P) (V := V)) n)) = 0) by (induction n; cbn; auto).
        rewrite Z0. change (Z.to_nat 0) with 0. destruct (to_process rows ck); cbn [pc_cost]; lia. }
      rewrite <- T_pending, (T_length todo). lia.
    Qed.
    Lemma stuck_done s : rows <> [] -> 1 <= k_workers c -> reached work c f s -> (forall x, act work c todo x s = None) -> all_done s.
    Proof.
      intros Hr Hw R St. destruct (reached_whole s R) as ((ph & rec & rest & m & I) & K & Tb & S).
      pose proof I as [Iw In_ Inx Ir Ip Ic Ig Ipc Is It Icm Il Iv Iz].
      assert (NW : forall a, In a ph -> match a with Sent _ | Working _ | Told => False | _ => True end).
      { intros a A. apply In_nth_error in A. destruct A as (k & A). specialize (St (Worker k)). cbn in St. unfold worker_step in St.
        rewrite Iw, (map_nth_error (shape work) _ _ A) in St. destruct a; cbn in St; try discriminate; exact Logic.I. }
      pose proof (St Master) as SM. cbn in SM. unfold master_step in SM. unfold tabled in Tb.
      destruct (s_pc s) as [|k|k| |k [|[i0 r] l]| | |e] eqn:Epc; try discriminate.
      - exfalso. destruct (Nat.ltb_spec (s_completed s) N) as [L|L]; [|discriminate]. destruct Ipc as (R0 & A0).
        assert (Off_ : forall a, In a ph -> a = Off).
        { intros a A. specialize (NW a A). pose proof (A0 a A). destruct a as [|b|b|b| |]; try contradiction; [|reflexivity].
          apply In_nth_error in A. destruct A as (k & A). specialize (St (Receive k)). cbn in St. unfold receive in St.
          rewrite Epc, Iw, (map_nth_error (shape work) _ _ A) in St. cbn [shape w_out] in St. apply Nat.ltb_lt in L. rewrite L in St. discriminate. }
        assert (Hh : flat_map holds ph = []).
        { clear - Off_. induction ph as [|a ph IH]; cbn; [auto|]. rewrite (Off_ a (or_introl eq_refl)). apply IH. intros; apply Off_; right; auto. }
        assert (Em : m = N).
        { destruct ph as [|a ph]; [cbn in In_; lia|]. specialize (Ig 0 a eq_refl). rewrite (Off_ a (or_introl eq_refl)) in Ig. exact Ig. }
        apply Permutation_length in Ip. rewrite firstn_length, (T_length todo), !app_length, Hh in Ip. subst m.
        rewrite R0 in Ip. cbn in Ip. lia.
      - split; [exact Epc|]. rewrite Iw. apply Forall_map. apply Forall_forall. intros a A. destruct Ipc as (_ & L & A0).
        destruct (complete s ph rec rest m I L) as (Em & Er & Eh & Pr).
        specialize (NW a A). pose proof (A0 a A) as Na. destruct a as [|b|b|b| |]; try contradiction; [|reflexivity].
        exfalso. apply In_nth_error in A. destruct A as (k & A). pose proof (Ig k _ A) as (Gb & _).
        destruct (flat_upd holds ph k _ A) as (r1 & P1 & _). rewrite Eh in P1. apply Permutation_nil in P1. cbn in P1.
        destruct b; [auto|discriminate].
      - contradiction.
    Qed.
    Lemma batch_sizes s : reached work c f s -> forall b, In (Batch b) (map snd (s_sent s)) -> b <> [] /\ (Z.of_nat (length b) <= k_batch c)%Z.
    Proof.
      intros R b B. destruct (reached_whole s R) as ((ph & rec & rest & m & I) & _). exact (i_sizes _ _ _ _ _ _ _ _ I b B).
    Qed.
    Lemma sent_prefix s : reached work c f s -> exists k, concat (map batch_of (s_sent s)) = firstn k (pending c f).
    Proof.
      intros R. destruct (reached_whole s R) as ((ph & rec & rest & m & I) & _). exists m. rewrite <- T_pending. apply (i_sent _ _ _ _ _ _ _ _ I).
    Qed.
    Lemma ended_history s : reached work c f s -> s_pc s = PEnded ->
      concat (map batch_of (s_sent s)) = pending c f /\ Permutation (s_computed s) (pending c f) /\
      forall k, k < k_workers c -> exists l, to_worker k (s_sent s) = map Batch l ++ [Stop].
    Proof.
      intros R E. destruct (reached_whole s R) as ((ph & rec & rest & m & I) & _).
      pose proof I as [Iw In_ Inx Ir Ip Ic Ig Ipc Is It Icm Il Iv Iz]. rewrite E in Ipc. destruct Ipc as (R0 & L & A0).
      destruct (complete s ph rec rest m I L) as (Em & Er & Eh & Pr). subst m rest.
      rewrite (firstn_all2 T) in Is by (rewrite (T_length todo); lia). split; [rewrite <- T_pending; exact Is|]. split.
      - rewrite Icm. rewrite <- T_pending, Pr.
        assert (X : flat_map finished ph = []).
        { assert (Y : forall a, In a ph -> holds a = []).
          { clear - Eh. induction ph as [|b ph IH]; cbn in *; [tauto|]. apply app_eq_nil in Eh. destruct Eh as (E1 & E2). intros a [<-|A]; auto. }
          clear - Y. induction ph as [|b ph IH]; cbn; [auto|]. rewrite IH by (intros; apply Y; right; auto).
          pose proof (Y b (or_introl eq_refl)) as Z. destruct b; cbn in *; subst; auto. }
        rewrite X. cbn. rewrite app_nil_r. apply Permutation_refl.
      - intros k Hk. destruct (nth_error ph k) as [a|] eqn:K; [|apply nth_error_None in K; lia].
        destruct (It k a K) as (l & El). exists l. rewrite El. f_equal.
        pose proof (A0 a (nth_error_In _ _ K)) as Na. pose proof (Ig k a K) as G.
        destruct (flat_upd holds ph k a K) as (r1 & P1 & _). rewrite Eh in P1. apply Permutation_nil in P1. apply app_eq_nil in P1. destruct P1 as (P1 & _).
        destruct a as [|b|b|b| |]; cbn in *; try contradiction; try reflexivity; destruct G as (G & _); contradiction.
    Qed.
    Lemma stops_last s k : reached work c f s -> k < k_workers c -> exists l, to_worker k (s_sent s) = map Batch l \/ to_worker k (s_sent s) = map Batch l ++ [Stop].
    Proof.
      intros R Hk. destruct (reached_whole s R) as ((ph & rec & rest & m & I) & _).
      pose proof I as [Iw In_ Inx Ir Ip Ic Ig Ipc Is It Icm Il Iv Iz].
      destruct (nth_error ph k) as [a|] eqn:K; [|apply nth_error_None in K; lia]. destruct (It k a K) as (l & El). exists l. rewrite El.
      destruct a; cbn; rewrite ?app_nil_r; auto.
    Qed.
    Lemma computed_pending s : reached work c f s -> forall i p, In (i, p) (s_computed s) -> In (i, p) (pending c f).
    Proof. intros R i p H. destruct (reached_whole s R) as (_ & _ & _ & S). rewrite <- T_pending. apply S. exact H. Qed.
  End Start.
End Final.
