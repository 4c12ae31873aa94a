(** What a run keeps of the checkpoint it starts from, and what the checkpoint is when a run has ended. *)
From Verif Require Import Base BaseLemmas PostModel MpiModel MpiSpec MpiLemmas MpiRun MpiInv MpiSafe MpiFinal MpiMore MpiClaims.
From Coq Require Import Lia Permutation.
Open Scope list_scope.
Open Scope nat_scope.

Section Kept.
  Context {P V : Type} (work : Z -> P -> presult V) (post : list (Z * P)).
  Hypothesis post_ok : consistent post.
  Hypothesis work_ok : labelled work.
  Context (c : config P).
  Hypothesis rows_ok : incl (k_rows c) post.
  Notation rows := (k_rows c).
  Notation placed := (placed work post c).
  Notation filled := (filled c).

  Definition holds (f : file V) (i : Z) : Prop := In i (map pr_index (file_rows f)).
  Lemma placed_label results i j r : placed results -> pos_of rows i = Some j -> nth_error results j = Some (Some r) -> pr_index r = i.
  Proof.
    intros (L & H) Q E. destruct (H j r E) as (Q' & _). destruct (pos_of_spec _ _ _ Q) as (p & A), (pos_of_spec _ _ _ Q') as (q & B). congruence.
  Qed.
  Lemma saved_holds results i : placed results -> filled results i -> holds (save_checkpoint results) i.
  Proof.
    intros H (j & r & Q & E). unfold holds. rewrite rows_saved. rewrite <- (placed_label results i j r H Q E).
    apply in_map, somes_in. eapply nth_error_In, E.
  Qed.
  Lemma saved_selected results r : placed results -> In r (file_rows (save_checkpoint results)) -> exists p, In (pr_index r, p) rows /\ r = work (pr_index r) p.
  Proof.
    intros H. rewrite rows_saved. intros I. apply somes_in, In_nth_error in I. destruct I as (j & E).
    destruct (placed_row work post post_ok c rows_ok results j r H E) as (p & A & B). exists p. split; [eapply nth_error_In, A|exact B].
  Qed.
  Lemma right_label f i p r : right_file work post f -> In (i, p) post -> r = work i p -> holds f i -> In r (file_rows f).
  Proof.
    intros (_ & F) I -> H. apply in_map_iff in H. destruct H as (r' & E & R). destruct (F r' R) as (q & Q & W). rewrite E in Q, W.
    rewrite (post_ok i p q I Q), <- W. exact R.
  Qed.

  Section Distributed.
    Context (f : file V).
    Hypothesis batch_pos : (1 <= k_batch c)%Z.
    Hypothesis file_ok : right_file work post f.
    Notation todo := (todo_of c f).
    Notation whole := (whole work post c f).

    Lemma file_step x s s' : act work c todo x s = Some s' ->
      s_file s' = s_file s \/ s_file s' = save_checkpoint (s_results s').
    Proof.
      intros H. destruct x as [|k|k]; cbn in H.
      - unfold master_step in H. destruct (s_pc s) as [|k|k| |k [|[i0 r] l]| | |e] eqn:Epc; try discriminate.
        + apply Some_inj in H. subst. unfold finish. destruct (save_final _ _); left; reflexivity.
        + apply Some_inj in H. subst. destruct (k <? k_workers c); [|left; reflexivity]. unfold send. destruct (nth_error _ _); left; reflexivity.
        + apply Some_inj in H. subst. destruct (k <? k_workers c); [|left; reflexivity]. unfold dispatch, send. destruct (_ <? _)%Z; destruct (nth_error _ _); left; reflexivity.
        + destruct (_ <? _); [discriminate|]. apply Some_inj in H. subst. cbn. unfold last_checkpoint. destruct (_ && _); [right|left]; reflexivity.
        + apply Some_inj in H. subst. unfold dispatch, send. destruct (_ <? _)%Z; destruct (nth_error _ _); left; reflexivity.
        + apply Some_inj in H. subst. unfold record_one. destruct (pos_of rows i0) as [j|]; [|left; reflexivity]. cbn.
          unfold after_result. destruct (_ && _); [right|left]; reflexivity.
        + apply Some_inj in H. subst. unfold finish. destruct (save_final _ _); left; reflexivity.
      - unfold receive in H. destruct (s_pc s); try discriminate. destruct (nth_error _ _) as [w|]; [|discriminate].
        destruct (w_out w); [discriminate|]. destruct (_ <? _); [|discriminate]. apply Some_inj in H. subst. left. reflexivity.
      - unfold worker_step in H. destruct (nth_error _ _) as [w|]; [|discriminate].
        destruct (w_state w); destruct (w_in w) as [|[b|] ms]; try discriminate; apply Some_inj in H; subst; left; reflexivity.
    Qed.
    Definition held (s : sys P V) : Prop := forall i p, In (i, p) rows -> holds f i -> holds (s_file s) i.
    Lemma held_step x s s' : whole s /\ held s -> act work c todo x s = Some s' -> whole s' /\ held s'.
    Proof.
      intros (W & K) H. pose proof (whole_step work post post_ok work_ok c rows_ok f batch_pos file_ok x s s' W H) as W'. split; [exact W'|].
      intros i p I Hi. destruct (file_step x s s' H) as [->| ->]; [exact (K i p I Hi)|].
      destruct W' as (_ & K' & _ & S). apply saved_holds; [apply S|]. apply K'.
      destruct (loaded work post c f file_ok) as (ck & E & _ & ->). cbn. exact (initial_filled c f ck i p E I Hi).
    Qed.
    Lemma distributed_kept s r p : reached work c f s -> In r (file_rows f) -> In (pr_index r, p) rows -> In r (file_rows (s_file s)).
    Proof.
      intros (l & R) I J.
      assert (W : whole s /\ held s).
      { eapply (run_invariant work c todo (fun s => whole s /\ held s) held_step); [|exact R].
        split; [exact (boot_whole work post c f file_ok)|]. intros i q _ H.
        destruct (loaded work post c f file_ok) as (ck & E & _ & ->). exact H. }
      destruct W as ((_ & _ & _ & S) & K). destruct (proj2 file_ok r I) as (q & Q & E). apply (right_label _ (pr_index r) q); auto; [apply S|].
      apply (K _ p J). apply in_map. exact I.
    Qed.

    (** When something was computed the checkpoint has been written at the end. *)
    Definition written (s : sys P V) : Prop :=
      match s_pc s with PSave | PStop _ => False | _ => True end /\
      ((s_file s = f /\ s_since s = Z.of_nat (s_completed s) /\ match s_pc s with PFinal | PEnded => False | _ => True end) \/
       exists results, placed results /\ s_file s = save_checkpoint results).
    Lemma written_step x s s' : enabled (k_save_every c) = true -> todo <> [] ->
      whole s /\ written s -> act work c todo x s = Some s' -> whole s' /\ written s'.
    Proof.
      intros En Ne (W & Q & D) H. pose proof (whole_step work post post_ok work_ok c rows_ok f batch_pos file_ok x s s' W H) as W'. split; [exact W'|].
      assert (Pl : placed (s_results s')) by apply W'. clear W'.
      destruct x as [|k|k]; cbn in H.
      - unfold master_step in H. unfold written. destruct (s_pc s) as [|k|k| |k [|[i0 r] l]| | |e] eqn:Epc; try discriminate; try contradiction.
        + apply Some_inj in H. subst. destruct (k <? k_workers c); [|auto]. unfold dispatch, send. destruct (_ <? _)%Z; destruct (nth_error _ _); auto.
        + destruct (Nat.ltb_spec (s_completed s) (length todo)) as [|Le]; [discriminate|]. apply Some_inj in H. subst. cbn in *. split; [exact Logic.I|]. right.
          unfold last_checkpoint. rewrite En. cbn [andb]. destruct (Z.ltb_spec 0 (s_since s)) as [A|A]; [exists (s_results s); auto|].
          destruct D as [(_ & D & _)|D]; [|exact D]. destruct todo; [contradiction|]. cbn in Le. lia.
        + apply Some_inj in H. subst. unfold dispatch, send. destruct (_ <? _)%Z; destruct (nth_error _ _); auto.
        + apply Some_inj in H. subst. unfold record_one in *. destruct (pos_of rows i0) as [j|]; [|auto]. cbn in *. split; [exact Logic.I|].
          unfold after_result. destruct (_ && _); cbn; [right; eexists; split; [exact Pl|reflexivity]|].
          destruct D as [(D1 & D2 & _)|D]; [left|right; exact D]. split; [exact D1|]. split; [lia|exact Logic.I].
        + apply Some_inj in H. subst. unfold finish. destruct D as [(_ & _ & [])|D]. destruct (save_final _ _); cbn; auto.
      - unfold receive in H. unfold written. destruct (s_pc s); try discriminate. destruct (nth_error _ _) as [w|]; [|discriminate].
        destruct (w_out w); [discriminate|]. destruct (_ <? _); [|discriminate]. apply Some_inj in H. subst. cbn. auto.
      - unfold worker_step in H. destruct (nth_error _ _) as [w|]; [|discriminate].
        destruct (w_state w); destruct (w_in w) as [|[b|] ms]; try discriminate; apply Some_inj in H; subst; unfold written; cbn; auto.
    Qed.
    Lemma distributed_final s every : (1 <= every)%Z -> k_save_every c = Some every -> pending c f <> [] -> reached work c f s -> s_pc s = PEnded ->
      forall r, In r (file_rows (s_file s)) <-> exists i p, In (i, p) rows /\ r = work i p.
    Proof.
      intros Ev Sv Pn R E r.
      assert (En : enabled (k_save_every c) = true) by (eapply enabled_every; eauto).
      assert (Ne : todo <> []).
      { intros X. apply Pn. rewrite <- (T_pending work post c f file_ok), X. reflexivity. }
      pose proof (reached_whole work post post_ok work_ok c rows_ok f batch_pos file_ok s R) as Wh. split.
      - intros I. assert (W : whole s /\ written s).
        { destruct R as (l & R). eapply (run_invariant work c todo (fun s => whole s /\ written s)); [intros x s1 s2; exact (written_step x s1 s2 En Ne)| |exact R].
          split; [exact (boot_whole work post c f file_ok)|].
          destruct (loaded work post c f file_ok) as (ck & _ & Et & ->). unfold written. cbn. rewrite Et in Ne. destruct (to_process rows ck); [contradiction|]. auto. }
        destruct W as (_ & _ & [(_ & _ & X)|(results & Pl & F)]); [rewrite E in X; contradiction|]. rewrite F in I.
        destruct (saved_selected results r Pl I) as (p & A & B). eauto.
      - intros (i & p & I & ->). destruct Wh as (Iv & K & _ & S).
        assert (Fi : filled (s_results s) i).
        { eapply (all_filled work post c f file_ok s Iv K); [rewrite E; exact Logic.I|exact I]. }
        destruct Fi as (j & r & Q & N). destruct (reached_lag work c every Ev Sv f s (proj1 file_ok) R) as (_ & L). rewrite E in L.
        assert (Ir : In r (file_rows (s_file s))) by (apply L, somes_in; eapply nth_error_In, N).
        apply (right_label _ i p); auto; [apply S|]. rewrite <- (placed_label _ i j r (f_results _ _ _ _ _ S) Q N). apply in_map. exact Ir.
    Qed.
  End Distributed.
End Kept.

Section SerialKept.
  Context {P V : Type} (work : Z -> P -> presult V) (c : config P).
  Notation rows := (k_rows c).
  Lemma loop_kept j r l : forall s, ~ In j (map (fun x => fst (fst x)) l) -> nth_error (e_results s) j = Some (Some r) -> In r (file_rows (e_file s)) ->
    let s' := serial_loop work c l s in nth_error (e_results s') j = Some (Some r) /\ In r (file_rows (e_file s')).
  Proof.
    induction l as [|((k, i), p) l IH]; intros s N E I; [auto|]. cbn [serial_loop]. apply IH.
    - intros X. apply N. now right.
    - cbn. rewrite upd_other; [exact E|]. intros ->. apply N. now left.
    - cbn. unfold after_result. destruct (_ && _); cbn; [|exact I]. rewrite rows_saved. apply somes_in.
      apply (nth_error_In _ j). rewrite upd_other; [exact E|]. intros ->. apply N. now left.
  Qed.
  Lemma todo_nodup (ck : option (list (presult V))) : NoDup (map (fun x => fst (fst x)) (to_process rows ck)).
  Proof.
    unfold to_process. set (q := fun x => negb (existsb (Z.eqb (snd (fst x))) (processed ck))).
    assert (G : forall (l : list (nat * Z * P)), NoDup (map (fun x => fst (fst x)) l) -> NoDup (map (fun x => fst (fst x)) (filter q l))).
    { induction l as [|a l IH]; cbn; [auto|]. intros N. apply NoDup_cons_iff in N. destruct N as (N1 & N2). destruct (q a); cbn; [|auto].
      constructor; [|auto]. intros X. apply N1. apply in_map_iff in X. destruct X as (y & <- & Y). apply filter_In in Y. apply in_map_iff. exists y. tauto. }
    apply G. rewrite map_map. cbn.
    assert (L : forall (rs : list (Z * P)) m, map fst (combine (seq m (length rs)) rs) = seq m (length rs)).
    { induction rs as [|a rs IH]; intros m; cbn; [reflexivity|]. now rewrite IH. }
    change (fun x : nat * (Z * P) => fst x) with (@fst nat (Z * P)). rewrite L. apply seq_NoDup.
  Qed.
  Lemma firstn_nodup {A} n (l : list A) : NoDup l -> NoDup (firstn n l).
  Proof.
    revert n. induction l as [|a l IH]; intros [|n] N; cbn; try constructor; apply NoDup_cons_iff in N; destruct N as (N1 & N2); auto.
    intros X. apply N1. rewrite <- (firstn_skipn n l). apply in_or_app. left. exact X.
  Qed.
  Lemma initial_length (ck : option (list (presult V))) : length (initial_results rows ck) = length rows.
  Proof.
    unfold initial_results. assert (G : forall l (x : list (option (presult V))), length (replay rows l x) = length x).
    { induction l as [|r l IH]; intros x; cbn; [reflexivity|]. rewrite IH. destruct (pos_of _ _); [apply upd_length|reflexivity]. }
    rewrite G. apply map_length.
  Qed.
  Lemma loop_holds ck f n i p : In (i, p) (firstn n (extract (to_process rows ck))) ->
    In (work i p) (somes (e_results (serial_loop work c (firstn n (to_process rows ck)) (serial_start c ck f)))).
  Proof.
    unfold extract. rewrite firstn_map. intros I. apply in_map_iff in I. destruct I as (((k & i') & p') & E & I). cbn in E. injection E as -> ->.
    apply somes_in. apply (nth_error_In _ k). apply loop_done; [|exact I|].
    - rewrite <- firstn_map. apply firstn_nodup, todo_nodup.
    - cbn. rewrite initial_length. apply nth_error_Some.
      assert (J : In (k, i, p) (to_process rows ck)) by (rewrite <- (firstn_skipn n); apply in_or_app; left; exact I).
      destruct (todo_pos rows ck k i p J) as (-> & _). discriminate.
  Qed.
  Lemma serial_lag_computed every (f : file V) n : (1 <= every)%Z -> k_save_every c = Some every -> readable f ->
    (exists missing, (Z.of_nat (length missing) < every)%Z /\
      forall i p, In (i, p) (firstn n (pending c f)) -> In (work i p) missing \/ In (work i p) (file_rows (serial_crash work c f n))) /\
    forall i p, In (i, p) (pending c f) -> In (work i p) (file_rows (fst (serial work c f))).
  Proof.
    intros Ev Sv Rd.
    assert (L : exists ck, load_checkpoint f = Ok ck) by (destruct f; cbn; eauto; contradiction Rd; reflexivity). destruct L as (ck & E).
    assert (Pe : pending c f = extract (to_process rows ck)).
    { rewrite extract_todo. unfold pending, file_rows. destruct f; cbn in E; try discriminate; apply Ok_inj in E; subst ck; reflexivity. }
    destruct (serial_lag work c every f n ck Ev Sv E) as ((missing & L & H) & G). split.
    - exists missing. split; [exact L|]. intros i p I. apply H. apply loop_holds. rewrite <- Pe. exact I.
    - intros i p I. apply G. rewrite <- (firstn_all (to_process rows ck)) at 1.
      apply loop_holds. rewrite <- Pe. rewrite firstn_all2; [exact I|]. rewrite Pe. unfold extract. rewrite map_length. apply Nat.le_refl.
  Qed.
  Lemma serial_kept (post : list (Z * P)) (f : file V) r p : consistent post -> labelled work -> incl rows post -> right_file work post f ->
    In r (file_rows f) -> In (pr_index r, p) rows ->
    (forall n, In r (file_rows (serial_crash work c f n))) /\ In r (file_rows (fst (serial work c f))).
  Proof.
    intros C W Ro F I J.
    assert (L : exists ck, load_checkpoint f = Ok ck) by (destruct F as (Rd & _); destruct f; cbn; eauto; contradiction Rd; reflexivity). destruct L as (ck & E).
    assert (Pr : processed ck = map pr_index (file_rows f)) by (destruct f; cbn in E; try discriminate; apply Ok_inj in E; subst ck; reflexivity).
    destruct (initial_filled c f ck (pr_index r) p E J (in_map _ _ _ I)) as (j & r' & Q & N).
    pose proof (initial_placed work post c f ck F E) as Pl.
    destruct (placed_row work post C c Ro _ j r' Pl N) as (q & A & B).
    assert (El : pr_index r' = pr_index r) by (exact (placed_label work post c _ _ j r' Pl Q N)).
    assert (Er : r' = r).
    { destruct (proj2 F r I) as (q' & Q' & W'). rewrite B, W', El. f_equal. apply (C (pr_index r)); [|exact Q'].
      apply Ro. rewrite <- El. eapply nth_error_In, A. }
    subst r'.
    assert (K : forall n, ~ In j (map (fun x => fst (fst x)) (firstn n (to_process rows ck)))).
    { intros n X. apply in_map_iff in X. destruct X as (((k & i) & p') & Ek & X). cbn in Ek. subst k.
      assert (Y : In (j, i, p') (to_process rows ck)) by (rewrite <- (firstn_skipn n); apply in_or_app; left; exact X).
      destruct (todo_pos rows ck j i p' Y) as (Y1 & Y2). apply Y2. rewrite Pr. replace i with (pr_index r) by congruence. apply in_map. exact I. }
    split.
    - intros n. unfold serial_crash. rewrite E. apply (loop_kept j r _ (serial_start c ck f) (K n)); auto.
    - unfold serial. rewrite E. cbn [fst]. specialize (K (length (to_process rows ck))). rewrite firstn_all in K.
      destruct (loop_kept j r _ (serial_start c ck f) K N I) as (K1 & K2).
      destruct (to_process rows ck); [exact I|]. unfold last_checkpoint. destruct (_ && _); [|exact K2].
      rewrite rows_saved. apply somes_in. eapply nth_error_In, K1.
  Qed.
End SerialKept.

(** A run over another selection: one sample that is not in [toy_file]. *)
Definition toy_other : config Z := {| k_rows := [(4, 10)]%Z; k_save_every := Some 1%Z; k_batch := 1%Z; k_workers := 1 |}.
Lemma toy_other_in : incl (k_rows toy_other) toy_post.
Proof. intros x [<-|[]]. left. reflexivity. Qed.
Lemma kept_claim : forall P V (work : Z -> P -> presult V) (post : list (Z * P)), consistent post -> labelled work ->
  forall (c : config P) (f : file V), incl (k_rows c) post -> left_behind work post f ->
  forall r, In r (file_rows f) -> In (pr_index r) (map fst (k_rows c)) ->
  (forall s, (1 <= k_batch c)%Z -> reached work c f s -> In r (file_rows (s_file s))) /\
  (forall n, In r (file_rows (serial_crash work c f n))) /\ In r (file_rows (fst (serial work c f))).
Proof.
  intros P V work post C W c f I L r R S. apply in_map_iff in S. destruct S as ((i & p) & E & S). cbn in E. subst i.
  pose proof (left_right work post W f L) as F. split.
  - intros s B X. exact (distributed_kept work post C W c I f B F s r p X R S).
  - exact (serial_kept work c post f r p C W I F R S).
Qed.
Lemma final_claim : forall P V (work : Z -> P -> presult V) (post : list (Z * P)), consistent post -> labelled work ->
  forall (c : config P) (every : Z) (f : file V) (s : sys P V), incl (k_rows c) post -> left_behind work post f -> (1 <= k_batch c)%Z ->
  (1 <= every)%Z -> k_save_every c = Some every -> pending c f <> [] -> reached work c f s -> s_pc s = PEnded ->
  forall r, In r (file_rows (s_file s)) <-> exists i p, In (i, p) (k_rows c) /\ r = work i p.
Proof.
  intros P V work post C W c every f s I L B Ev Sv Pn R E. exact (distributed_final work post C W c I f B (left_right work post W f L) s every Ev Sv Pn R E).
Qed.
Lemma other_lost : ~ forall P V (work : Z -> P -> presult V) (post : list (Z * P)), consistent post -> labelled work ->
  forall (c : config P) (f : file V) (s : sys P V), incl (k_rows c) post -> left_behind work post f -> (1 <= k_batch c)%Z -> reached work c f s ->
  forall r, In r (file_rows f) -> In r (file_rows (s_file s)).
Proof.
  intros H. specialize (H Z Z toy_work toy_post toy_consistent toy_labelled toy_other toy_file (toy_end toy_other toy_file) toy_other_in toy_left).
  assert (B : (1 <= k_batch toy_other)%Z) by (cbn; lia). specialize (H B (toy_reached toy_other toy_file) (toy_work 7 20)).
  assert (A : In (toy_work 7 20) (file_rows toy_file)) by (vm_compute; auto). specialize (H A). vm_compute in H. destruct H as [H|[]]. discriminate H.
Qed.
