(** Results and checkpoint files only ever hold right results. *)
From Verif Require Import Base BaseLemmas PostModel MpiModel MpiSpec MpiLemmas MpiRun MpiInv.
From Coq Require Import Lia Permutation.
Open Scope list_scope.
Open Scope nat_scope.

Lemma slice_in {A} (l : list A) a b x : In x (slice l a b) -> In x l.
Proof.
  unfold slice. intros H. rewrite <- (firstn_skipn a l). apply in_or_app. right.
  rewrite <- (firstn_skipn (b - a) (skipn a l)). apply in_or_app. left. exact H.
Qed.

Section Safe.
  Context {P V : Type} (work : Z -> P -> presult V) (post : list (Z * P)).
  Hypothesis post_ok : consistent post.
  Hypothesis work_ok : labelled work.

  Definition right_file (f : file V) : Prop := readable f /\ forall r, In r (file_rows f) -> right_result work post r.

  Section Config.
    Context (c : config P).
    Hypothesis rows_ok : incl (k_rows c) post.
    (** Results are at the position of their label. *)
    Definition placed (results : list (option (presult V))) : Prop :=
      length results = length (k_rows c) /\
      forall j r, nth_error results j = Some (Some r) -> pos_of (k_rows c) (pr_index r) = Some j /\ right_result work post r.
    Lemma placed_upd results j r : placed results -> pos_of (k_rows c) (pr_index r) = Some j -> right_result work post r ->
      placed (upd j (Some r) results).
    Proof.
      intros (L & H) E R. split; [rewrite upd_length; exact L|]. intros k x. rewrite nth_error_upd. destruct (Nat.eqb_spec k j) as [->|D].
      - destruct (nth_error results j); [|discriminate]. intros X. apply Some_inj, Some_inj in X. subst x. auto.
      - apply H.
    Qed.
    Lemma placed_row results j r : placed results -> nth_error results j = Some (Some r) ->
      exists p, nth_error (k_rows c) j = Some (pr_index r, p) /\ r = work (pr_index r) p.
    Proof.
      intros (L & H) E. destruct (H j r E) as (Q & p & I & W). destruct (pos_of_spec _ _ _ Q) as (q & Eq). exists q. split; [exact Eq|].
      rewrite (post_ok (pr_index r) q p); auto. apply rows_ok. eapply nth_error_In, Eq.
    Qed.
    Lemma replay_placed l : forall results, (forall r, In r l -> right_result work post r) -> placed results -> placed (replay (k_rows c) l results).
    Proof.
      induction l as [|r l IH]; intros results R H; cbn; [auto|]. apply IH; [intros; apply R; right; auto|].
      destruct (pos_of (k_rows c) (pr_index r)) as [j|] eqn:E; [|exact H]. apply placed_upd; auto. apply R. left. reflexivity.
    Qed.
    Lemma blank_placed : placed (map (fun _ => None) (k_rows c)).
    Proof.
      split; [apply map_length|]. intros j r E. rewrite nth_error_map in E. destruct (nth_error _ _); cbn in E; congruence.
    Qed.
    Lemma initial_placed f ck : right_file f -> load_checkpoint f = Ok ck -> placed (initial_results (k_rows c) ck).
    Proof.
      intros (_ & R) E. unfold initial_results. apply replay_placed; [|apply blank_placed].
      destruct f; cbn in E; try discriminate; apply Ok_inj in E; subst ck; cbn in *; intuition.
    Qed.
    Lemma placed_somes results r : placed results -> In r (somes results) -> right_result work post r.
    Proof. intros (L & H) I. apply somes_in in I. apply In_nth_error in I. destruct I as (j & E). apply (H j r E). Qed.
    Lemma save_right results : placed results -> right_file (save_checkpoint results).
    Proof.
      intros H. unfold save_checkpoint. destruct (somes results) eqn:E; [split; [discriminate|cbn; tauto]|].
      split; [discriminate|]. cbn [file_rows]. rewrite <- E. intros r. apply placed_somes. exact H.
    Qed.
    Lemma after_right results since f : placed results -> right_file f -> right_file (snd (after_result c results since f)).
    Proof. intros H F. unfold after_result. destruct (_ && _); cbn; [apply save_right|]; auto. Qed.
    Lemma last_right results since f : placed results -> right_file f -> right_file (last_checkpoint c results since f).
    Proof. intros H F. unfold last_checkpoint. destruct (_ && _); cbn; [apply save_right|]; auto. Qed.
    Lemma work_right i p : In (i, p) post -> right_result work post (work i p).
    Proof. intros H. exists p. rewrite work_ok. auto. Qed.

    (** *** The distributed run *)
    Section Todo.
      Context (todo : list (nat * Z * P)).
      Hypothesis todo_ok : forall i p, In (i, p) (extract todo) -> In (i, p) (k_rows c).
      Notation T := (extract todo).
      Notation answer := (answer work).
      Definition msg_ok (m : msg P) : Prop := match m with Batch b => incl b T | Stop => True end.
      Definition worker_ok (w : worker P V) : Prop :=
        (forall m, In m (w_in w) -> msg_ok m) /\ match w_state w with Busy b => incl b T | _ => True end /\
        forall m, In m (w_out w) -> exists b, incl b T /\ m = answer b.
      Record safe (s : sys P V) : Prop := {
        f_workers : forall w, In w (s_workers s) -> worker_ok w;
        f_pc : match s_pc s with
               | PRecord k l => exists b, incl b T /\ l = map (fun x => (fst x, work (fst x) (snd x))) b
               | _ => True end;
        f_results : placed (s_results s);
        f_file : right_file (s_file s);
        f_computed : incl (s_computed s) T
      }.
      Lemma combine_answer b : combine (fst (answer b)) (snd (answer b)) = map (fun x => (fst x, work (fst x) (snd x))) b.
      Proof. induction b as [|[i p] b IH]; cbn in *; [auto|]. rewrite IH. reflexivity. Qed.
      Lemma safe_send k m s : msg_ok m -> safe s -> safe (send k m s).
      Proof.
        intros M S. unfold send. destruct (nth_error (s_workers s) k) as [w|] eqn:E; [|exact S].
        destruct S as [S1 S2 S3 S4 S5]. constructor; cbn; auto. intros x X. apply upd_in in X. destruct X as [->|X]; [|auto].
        destruct (S1 w (nth_error_In _ _ E)) as (A1 & A2 & A3). split; [|split]; cbn; auto.
        intros y Y. apply in_app_or in Y. destruct Y as [Y|[->|[]]]; auto.
      Qed.
      Lemma safe_dispatch k s : safe s -> safe (dispatch c todo k s).
      Proof.
        intros S. unfold dispatch. destruct (_ <? _)%Z; [|apply safe_send; [exact I|exact S]].
        assert (M : safe (send k (Batch (extract (zslice todo (s_next s) (Z.min (s_next s + k_batch c) (Z.of_nat (length todo)))))) s)).
        { apply safe_send; [|exact S]. cbn. intros x X. unfold extract in *. apply in_map_iff in X. destruct X as (y & <- & Y).
          apply in_map_iff. exists y. split; [auto|]. eapply slice_in, Y. }
        destruct M as [S1 S2 S3 S4 S5]. constructor; auto.
      Qed.
      Lemma safe_pc x s : safe s -> match x with PRecord k l => exists b, incl b T /\ l = map (fun x => (fst x, work (fst x) (snd x))) b | _ => True end ->
        safe (set_pc x s).
      Proof. intros [S1 S2 S3 S4 S5] H. constructor; auto. Qed.
      Lemma safe_finish x s : (match x with PRecord _ _ => False | _ => True end) -> safe s -> safe (finish c x s).
      Proof.
        intros Hx S. unfold finish. destruct (save_final _ _).
        - destruct S as [S1 S2 S3 S4 S5]. constructor; auto. cbn. destruct x; auto. contradiction.
        - apply safe_pc; auto.
      Qed.
      Lemma safe_worker k w w' s : safe s -> nth_error (s_workers s) k = Some w -> worker_ok w' -> safe (set_worker k w' s).
      Proof.
        intros [S1 S2 S3 S4 S5] E H. constructor; auto. cbn. intros x X. apply upd_in in X. destruct X as [->|X]; auto.
      Qed.
      Lemma safe_step x s s' : safe s -> act work c todo x s = Some s' -> safe s'.
      Proof.
        intros S. destruct x as [|k|k]; cbn.
        - unfold master_step. destruct (s_pc s) as [|k|k| |k [|[i r] l]| | |e] eqn:Epc; try discriminate.
          + intros H. apply Some_inj in H. subst. apply safe_finish; auto.
          + intros H. apply Some_inj in H. subst. destruct (k <? k_workers c); apply safe_pc; auto. apply safe_send; [exact I|auto].
          + intros H. apply Some_inj in H. subst. destruct (k <? k_workers c); apply safe_pc; auto. apply safe_dispatch; auto.
          + destruct (_ <? _); [discriminate|]. intros H. apply Some_inj in H. subst. destruct S as [S1 S2 S3 S4 S5]. constructor; cbn; auto.
            apply last_right; auto.
          + intros H. apply Some_inj in H. subst. apply safe_pc; auto. apply safe_dispatch; auto.
          + intros H. apply Some_inj in H. subst. destruct S as [S1 S2 S3 S4 S5]. rewrite Epc in S2. destruct S2 as (b & B & E).
            destruct b as [|[i' p] b]; [discriminate|]. cbn in E. injection E as -> -> ->. unfold record_one.
            assert (Hr : right_result work post (work i' p)) by (apply work_right, rows_ok, todo_ok, B; left; reflexivity).
            destruct (pos_of (k_rows c) i') as [j|] eqn:Q.
            * assert (Hp : placed (upd j (Some (work i' p)) (s_results s))) by (apply placed_upd; auto; rewrite work_ok; exact Q).
              constructor; cbn; auto; [|apply after_right; auto]. exists b. split; [intros x X; apply B; right; auto|auto].
            * constructor; cbn; auto.
          + intros H. apply Some_inj in H. subst. apply safe_finish; auto.
        - unfold receive. destruct (s_pc s) eqn:Epc; try discriminate. destruct (nth_error (s_workers s) k) as [w|] eqn:W; [|discriminate].
          destruct (w_out w) as [|m ms] eqn:O; [discriminate|]. destruct (_ <? _); [|discriminate]. intros H. apply Some_inj in H. subst.
          destruct (f_workers s S w (nth_error_In _ _ W)) as (A1 & A2 & A3). rewrite O in A3.
          apply safe_pc.
          + apply (safe_worker k w); auto. split; [|split]; cbn; auto. intros y Y. apply A3. right. exact Y.
          + destruct (A3 m (or_introl eq_refl)) as (b & B & ->). exists b. split; [exact B|]. apply combine_answer.
        - unfold worker_step. destruct (nth_error (s_workers s) k) as [w|] eqn:W; [|discriminate].
          destruct (f_workers s S w (nth_error_In _ _ W)) as (A1 & A2 & A3).
          destruct (w_state w) as [|b|] eqn:St; destruct (w_in w) as [|[b'|] ms] eqn:In_; try discriminate; intros H; apply Some_inj in H; subst.
          + apply (safe_worker k w); auto. split; [|split]; cbn; auto. * intros y Y. apply A1. right. exact Y. * apply (A1 (Batch b')). left. reflexivity.
          + apply (safe_worker k w); auto. split; [|split]; cbn; auto. intros y Y. apply A1. right. exact Y.
          + destruct S as [S1 S2 S3 S4 S5]. constructor; cbn; auto; [|apply incl_app; auto]. intros x X. apply upd_in in X. destruct X as [->|X]; auto.
            split; [|split]; cbn; auto. intros y Y. apply in_app_or in Y. destruct Y as [Y|[<-|[]]]; [auto|]. exists b. auto.
          + destruct S as [S1 S2 S3 S4 S5]. constructor; cbn; auto; [|apply incl_app; auto]. intros x X. apply upd_in in X. destruct X as [->|X]; auto.
            split; [|split]; cbn; auto. intros y Y. apply in_app_or in Y. destruct Y as [Y|[<-|[]]]; [auto|]. exists b. auto.
          + destruct S as [S1 S2 S3 S4 S5]. constructor; cbn; auto; [|apply incl_app; auto]. intros x X. apply upd_in in X. destruct X as [->|X]; auto.
            split; [|split]; cbn; auto. intros y Y. apply in_app_or in Y. destruct Y as [Y|[<-|[]]]; [auto|]. exists b. auto.
      Qed.
    End Todo.

    Lemma todo_rows (f : file V) i p : In (i, p) (extract (todo_of c f)) -> In (i, p) (k_rows c).
    Proof. rewrite (todo_file c f). destruct f; [apply pending_in|apply pending_in|apply pending_in|cbn; tauto]. Qed.
    Lemma boot_safe f : right_file f -> safe (todo_of c f) (boot c f).
    Proof.
      intros F. unfold boot. destruct (load_checkpoint f) as [ck|e] eqn:E.
      - constructor; cbn; auto.
        + intros w W. apply in_map_iff in W. destruct W as (_ & <- & _). split; [|split]; cbn; tauto.
        + destruct (to_process _ _); exact I.
        + eapply initial_placed; eauto.
        + intros x [].
      - destruct F as (F & _). destruct f; cbn in E; try discriminate. contradiction F. reflexivity.
    Qed.
    Lemma reached_safe f s : right_file f -> reached work c f s -> safe (todo_of c f) s.
    Proof.
      intros F (l & R). eapply (run_invariant work c (todo_of c f) (safe (todo_of c f))); [|apply (boot_safe f F)|exact R].
      intros x s1 s2 H. apply safe_step; auto. apply todo_rows.
    Qed.

    (** *** The serial run.  (Only for labels that are selected once are the results at the position of their label.) *)
    Definition stored (results : list (option (presult V))) : Prop := forall r, In r (somes results) -> right_result work post r.
    Lemma serial_stored l : forall s, (forall k i p, In (k, i, p) l -> In (i, p) (k_rows c)) -> stored (e_results s) -> right_file (e_file s) ->
      let s' := serial_loop work c l s in stored (e_results s') /\ right_file (e_file s').
    Proof.
      induction l as [|[[k i] p] l IH]; intros s H S F; cbn; [auto|].
      assert (S' : stored (upd k (Some (work i p)) (e_results s))).
      { intros r R. apply somes_in in R. apply upd_in in R. destruct R as [R|R].
        - apply Some_inj in R. subst r. apply work_right, rows_ok. eapply H. left. reflexivity.
        - apply S. apply somes_in. exact R. }
      assert (G : forall x, stored x -> right_file (save_checkpoint x)).
      { intros x X. unfold save_checkpoint. destruct (somes x) eqn:E; [split; [discriminate|cbn; tauto]|]. split; [discriminate|].
        cbn [file_rows]. rewrite <- E. exact X. }
      apply IH; cbn; auto. { intros k' i' p' X. eapply H. right. exact X. }
      unfold after_result. destruct (_ && _); cbn; auto.
    Qed.
  End Config.

  Lemma left_right f : left_behind work post f -> right_file f.
  Proof.
    induction 1 as [|c f s H IH R S|c f n H IH R|c f H IH R].
    - split; [discriminate|cbn; tauto].
    - apply (f_file c _ s (reached_safe c R f s IH S)).
    - unfold serial_crash. destruct (load_checkpoint f) as [ck|e] eqn:E; [|exact IH].
      apply (serial_stored c R); cbn.
      + intros k i p X. assert (Y : In (k, i, p) (to_process (k_rows c) ck)).
        { rewrite <- (firstn_skipn n). apply in_or_app. left. exact X. }
        apply todo_pos in Y. eapply nth_error_In. apply Y.
      + intros r X. eapply placed_somes; [|exact X]. eapply initial_placed; eauto.
      + exact IH.
    - unfold serial. destruct (load_checkpoint f) as [ck|e] eqn:E; [|exact IH]. cbn [fst].
      destruct (serial_stored c R (to_process (k_rows c) ck) (serial_start c ck f)) as (S1 & S2); cbn.
      + intros k i p X. apply todo_pos in X. eapply nth_error_In. apply X.
      + intros r X. eapply placed_somes; [|exact X]. eapply initial_placed; eauto.
      + exact IH.
      + destruct (to_process (k_rows c) ck); [exact IH|]. unfold last_checkpoint. destruct (_ && _); [|exact S2].
        unfold save_checkpoint. destruct (somes _) eqn:Es; [split; [discriminate|cbn; tauto]|]. split; [discriminate|].
        cbn [file_rows]. rewrite <- Es. exact S1.
  Qed.
End Safe.
