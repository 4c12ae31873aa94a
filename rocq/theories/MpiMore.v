(** How far the checkpoint lags behind, the serial run, batches of size 0 and runs with nothing to do. *)
From Verif Require Import Base BaseLemmas PostModel MpiModel MpiSpec MpiLemmas MpiRun MpiInv MpiSafe MpiFinal.
From Coq Require Import Lia Permutation.
Open Scope list_scope.
Open Scope nat_scope.

Lemma rows_saved {V} (results : list (option (presult V))) : file_rows (save_checkpoint results) = somes results.
Proof. unfold save_checkpoint. destruct (somes results); reflexivity. Qed.

Section Lag.
  Context {P V : Type} (work : Z -> P -> presult V) (c : config P) (every : Z).
  Hypothesis every_pos : (1 <= every)%Z.
  Hypothesis save_ok : k_save_every c = Some every.

  Lemma enabled_every : enabled (k_save_every c) = true.
  Proof. rewrite save_ok. cbn. destruct (Z.eqb_spec every 0); [lia|reflexivity]. Qed.
  Definition behind (results : list (option (presult V))) (since : Z) (f : file V) : Prop :=
    (0 <= since < every)%Z /\ exists missing, (Z.of_nat (length missing) <= since)%Z /\
      forall r, In r (somes results) -> In r missing \/ In r (file_rows f).
  Lemma after_behind results since f j r : behind results since f ->
    let x := after_result c (upd j (Some r) results) since f in behind (upd j (Some r) results) (fst x) (snd x).
  Proof.
    intros (B & missing & L & H). unfold after_result. rewrite enabled_every, save_ok. cbn [interval andb].
    destruct (Z.leb_spec every (since + 1)) as [A|A]; cbn [fst snd].
    - split; [lia|]. exists []. split; [cbn; lia|]. intros x X. right. rewrite rows_saved. exact X.
    - split; [lia|]. exists (r :: missing). split; [cbn [length]; lia|]. intros x X. apply somes_in in X. apply upd_in in X. destruct X as [X|X].
      + left. left. congruence.
      + apply somes_in in X. destruct (H x X); [left; right; auto|auto].
  Qed.
  Lemma last_behind results since f : behind results since f ->
    forall r, In r (somes results) -> In r (file_rows (last_checkpoint c results since f)).
  Proof.
    intros (B & missing & L & H) r R. unfold last_checkpoint. rewrite enabled_every. cbn [andb]. destruct (Z.ltb_spec 0 since) as [A|A].
    - rewrite rows_saved. exact R.
    - destruct missing; [|cbn [length] in L; lia]. destruct (H r R) as [[]|X]; auto.
  Qed.
  Lemma replay_from (rows : list (Z * P)) l : forall results r, In r (somes (replay (V := V) rows l results)) -> In r l \/ In r (somes results).
  Proof.
    induction l as [|x l IH]; intros results r; cbn; [auto|]. intros H. apply IH in H. destruct H as [H|H]; [auto|].
    destruct (pos_of rows (pr_index x)); [|auto]. apply somes_in, upd_in in H. destruct H as [H|H]; [left; left; congruence|right; apply somes_in; auto].
  Qed.
  Lemma initial_from (rows : list (Z * P)) f ck r : load_checkpoint f = Ok ck -> In r (somes (initial_results (V := V) rows ck)) -> In r (file_rows f).
  Proof.
    intros E H. unfold initial_results in H. apply replay_from in H. destruct H as [H|H].
    - destruct f; cbn in E; try discriminate; apply Ok_inj in E; subst ck; cbn in *; auto; contradiction.
    - exfalso. induction rows; cbn in *; auto.
  Qed.
  Lemma boot_behind f ck : load_checkpoint f = Ok ck -> behind (initial_results (k_rows c) ck) 0 f.
  Proof. intros E. split; [lia|]. exists []. split; [cbn; lia|]. intros r R. right. eapply initial_from; eauto. Qed.

  Definition lag (s : sys P V) : Prop :=
    behind (s_results s) (s_since s) (s_file s) /\
    match s_pc s with PSave | PStop _ => s_since s = 0%Z
    | PFinal | PEnded => forall r, In r (somes (s_results s)) -> In r (file_rows (s_file s)) | _ => True end.
  Lemma zero_behind results f : behind results 0 f -> forall r, In r (somes results) -> In r (file_rows f).
  Proof. intros (B & missing & L & H) r R. destruct missing; [|cbn [length] in L; lia]. destruct (H r R) as [[]|X]; auto. Qed.
  Lemma lag_step todo x s s' : lag s -> act work c todo x s = Some s' -> lag s'.
  Proof.
    intros (B & F). unfold lag. destruct x as [|k|k]; cbn.
    - unfold master_step. destruct (s_pc s) as [|k|k| |k [|[i r] l]| | |e] eqn:Epc; try discriminate.
      + intros H. apply Some_inj in H. subst. unfold finish. destruct (save_final _ _); cbn; auto.
      + intros H. apply Some_inj in H. subst. destruct (k <? k_workers c).
        * unfold send. destruct (nth_error _ _); cbn; auto.
        * cbn. split; [exact B|]. rewrite F in B. exact (zero_behind _ _ B).
      + intros H. apply Some_inj in H. subst. destruct (k <? k_workers c); [|cbn; auto]. unfold dispatch, send. destruct (_ <? _)%Z; destruct (nth_error _ _); cbn; auto.
      + destruct (_ <? _); [discriminate|]. intros H. apply Some_inj in H. subst. cbn. split; [|exact (last_behind _ _ _ B)].
        destruct B as (B1 & B2). split; [exact B1|]. exists []. split; [cbn; lia|]. intros r R. right. apply (last_behind _ (s_since s)); [split; auto|exact R].
      + intros H. apply Some_inj in H. subst. unfold dispatch, send. destruct (_ <? _)%Z; destruct (nth_error _ _); cbn; auto.
      + intros H. apply Some_inj in H. subst. unfold record_one. destruct (pos_of _ _) as [j|]; cbn [s_results s_since s_file s_pc set_pc]; [|auto].
        split; [|auto]. apply after_behind. exact B.
      + intros H. apply Some_inj in H. subst. unfold finish. destruct (save_final _ _); cbn; auto.
    - unfold receive. destruct (s_pc s); try discriminate. destruct (nth_error _ _) as [w|]; [|discriminate].
      destruct (w_out w); [discriminate|]. destruct (_ <? _); [|discriminate]. intros H. apply Some_inj in H. subst. cbn. auto.
    - unfold worker_step. destruct (nth_error _ _) as [w|]; [|discriminate].
      destruct (w_state w); destruct (w_in w) as [|[b|] ms]; try discriminate; intros H; apply Some_inj in H; subst; cbn; auto.
  Qed.
  Lemma reached_lag f s : readable f -> reached work c f s -> lag s.
  Proof.
    intros F (l & R). eapply (run_invariant work c (todo_of c f) lag (lag_step (todo_of c f))); [|exact R].
    unfold boot. destruct (load_checkpoint f) as [ck|e] eqn:E.
    - split; cbn; [apply boot_behind; exact E|]. destruct (to_process _ _); auto.
    - destruct f; cbn in E; try discriminate. contradiction F. reflexivity.
  Qed.
  Lemma checkpoint_lag post f s : consistent post -> labelled work -> incl (k_rows c) post -> right_file work post f -> (1 <= k_batch c)%Z ->
    reached work c f s ->
    (exists missing, (Z.of_nat (length missing) <= every + k_batch c - 1)%Z /\
      forall r, In r (received s) -> In r missing \/ In r (file_rows (s_file s))) /\
    (s_pc s = PEnded -> forall r, In r (received s) -> In r (file_rows (s_file s))).
  Proof.
    intros C W I F B R. destruct (reached_lag f s (proj1 F) R) as ((B1 & missing & L & H) & E).
    destruct (reached_whole work post C W c I f B F s R) as ((ph & rec & rest & m & J) & _).
    pose proof (i_pc _ _ _ _ _ _ _ _ J) as Jp. unfold received. destruct (s_pc s) as [|k|k| |k l| | |e]; cbn in Jp; rewrite ?app_nil_r.
    5:{ destruct Jp as (El & Hl & _). split; [|discriminate]. exists (missing ++ map snd l). split.
        - rewrite app_length, map_length, El, map_length. lia.
        - intros r X. apply in_app_or in X. destruct X as [X|X]; [destruct (H r X); [left; apply in_or_app; auto|auto]|left; apply in_or_app; auto]. }
    all: split; [exists missing; split; [lia|exact H]|try discriminate; auto].
  Qed.
  (** The serial run. *)
  Lemma serial_behind l : forall s, behind (e_results s) (e_since s) (e_file s) ->
    let s' := serial_loop work c l s in behind (e_results s') (e_since s') (e_file s').
  Proof. induction l as [|[[k i] p] l IH]; intros s B; cbn; [auto|]. apply IH. cbn. apply after_behind. exact B. Qed.
End Lag.

Section Serial.
  Context {P V : Type} (work : Z -> P -> presult V) (post : list (Z * P)).
  Hypothesis post_ok : consistent post.
  Hypothesis work_ok : labelled work.
  Context (c : config P).
  Hypothesis rows_ok : incl (k_rows c) post.
  Notation rows := (k_rows c).

  Lemma serial_placed l : NoDup (map fst rows) -> (forall k i p, In (k, i, p) l -> nth_error rows k = Some (i, p)) ->
    forall s, placed work post c (e_results s) ->
    let s' := serial_loop work c l s in placed work post c (e_results s') /\
      (forall i, filled c (e_results s) i -> filled c (e_results s') i) /\ forall k i p, In (k, i, p) l -> filled c (e_results s') i.
  Proof.
    intros N. induction l as [|[[k i] p] l IH]; intros H s Pl; cbn [serial_loop].
    - split; [auto|]. split; [auto|]. intros k i p [].
    - pose proof (H k i p (or_introl eq_refl)) as E. pose proof (pos_of_nodup rows i p k N E) as Q.
      assert (Pl' : placed work post c (upd k (Some (work i p)) (e_results s))).
      { apply placed_upd; auto; [rewrite work_ok; exact Q|]. apply work_right; auto. apply rows_ok. eapply nth_error_In, E. }
      match goal with |- context [serial_loop work c l ?y] => set (s1 := y) end.
      destruct (IH (fun k' i' p' X => H k' i' p' (or_intror X)) s1 Pl') as (G1 & G2 & G3).
      split; [exact G1|]. split.
      + intros i' F. apply G2. apply (fill_upd c _ i); auto. apply Pl.
      + intros k' i' p' [X|X]; [|exact (G3 _ _ _ X)]. injection X as <- <- <-. apply G2. apply (fill_upd c _ i); auto. apply Pl.
  Qed.
  Lemma serial_table f : NoDup (map fst rows) -> rows <> [] -> right_file work post f -> snd (serial work c f) = Ok (full_table work rows).
  Proof.
    intros N Hr F. destruct (loaded work post c f F) as (ck & E & Et & _). unfold serial. rewrite E. cbn [snd].
    destruct (serial_placed (to_process rows ck) N) with (s := serial_start c ck f) as (G1 & G2 & G3).
    - intros k i p X. apply (todo_pos rows ck). exact X.
    - cbn. exact (initial_placed work post c f ck F E).
    - apply (final_table work post post_ok c rows_ok); auto. intros i p I.
      destruct (in_dec Z.eq_dec i (map pr_index (file_rows f))) as [D|D].
      + apply G2. cbn. exact (initial_filled c f ck i p E I D).
      + assert (X : In (i, p) (extract (todo_of c f))) by (rewrite (T_pending work post c f F); apply pending_in; auto).
        rewrite Et in X. unfold extract in X. apply in_map_iff in X. destruct X as ([[k i'] p'] & Ex & X). cbn in Ex. injection Ex as -> ->.
        exact (G3 k i p X).
  Qed.

  (** Without a checkpoint, any selection. *)
  Definition numbered_rows (k : nat) (rs : list (Z * P)) : list (nat * Z * P) :=
    map (fun x => (fst x, fst (snd x), snd (snd x))) (combine (seq k (length rs)) rs).
  Lemma upd_app {A} (x y : A) l1 l2 : upd (length l1) x (l1 ++ y :: l2) = l1 ++ x :: l2.
  Proof. induction l1; cbn; [auto|]. rewrite IHl1. reflexivity. Qed.
  Lemma serial_all rs : forall pre s, e_results s = map (fun x => Some (work (fst x) (snd x))) pre ++ map (fun _ => None) rs ->
    e_results (serial_loop work c (numbered_rows (length pre) rs) s) = map (fun x => Some (work (fst x) (snd x))) (pre ++ rs).
  Proof.
    induction rs as [|[i p] rs IH]; intros pre s E; cbn [numbered_rows length seq combine map serial_loop fst snd].
    - rewrite E, !app_nil_r. reflexivity.
    - specialize (IH (pre ++ [(i, p)])). rewrite app_length in IH. cbn [length] in IH. rewrite Nat.add_1_r in IH.
      change ((pre ++ (i, p) :: rs)) with (pre ++ [(i, p)] ++ rs). rewrite app_assoc. apply IH. cbn [e_results]. rewrite E.
      replace (length pre) with (length (map (fun x : Z * P => Some (work (fst x) (snd x))) pre)) by apply map_length.
      cbn [map]. rewrite upd_app. rewrite map_app, <- app_assoc. reflexivity.
  Qed.
  Lemma somes_map {A B} (g : A -> B) l : somes (map (fun x => Some (g x)) l) = map g l.
  Proof. induction l; cbn; [auto|]. rewrite IHl. reflexivity. Qed.
  Lemma filter_true {A} (l : list A) : filter (fun _ => true) l = l.
  Proof. induction l; cbn; congruence. Qed.
  Definition repeated_table : list (row P V) :=
    flat_map (fun x => map (fun y => (x, Some (work (fst y) (snd y)))) (filter (fun y => Z.eqb (fst y) (fst x)) rows)) rows.
  Lemma serial_any : rows <> [] -> snd (serial work c Absent) = Ok repeated_table.
  Proof.
    intros Hr. unfold serial. cbn [load_checkpoint snd].
    assert (Et : to_process (V := V) rows None = numbered_rows (length (@nil (Z * P))) rows).
    { unfold to_process, numbered_rows. cbn. apply filter_true. }
    rewrite Et, (serial_all rows []) by reflexivity. cbn [app]. unfold save_final. rewrite somes_map.
    destruct (map (fun x : Z * P => work (fst x) (snd x)) rows) as [|r0 l0] eqn:E0; [destruct rows; [contradiction|discriminate]|].
    rewrite <- E0. f_equal. unfold repeated_table.
    assert (G : forall l, incl l rows -> flat_map (merge_row (map (fun x => work (fst x) (snd x)) rows)) l =
      flat_map (fun x => map (fun y => (x, Some (work (fst y) (snd y)))) (filter (fun y => Z.eqb (fst y) (fst x)) rows)) l).
    { induction l as [|x l IH]; intros I; cbn [flat_map]; [auto|]. rewrite IH by (intros z Z; apply I; right; auto). f_equal.
      unfold merge_row.
      assert (Fm : filter (fun r => Z.eqb (pr_index r) (fst x)) (map (fun y => work (fst y) (snd y)) rows) =
                   map (fun y => work (fst y) (snd y)) (filter (fun y => Z.eqb (fst y) (fst x)) rows)).
      { rewrite <- (filter_map (fun y => work (fst y) (snd y)) (fun r => Z.eqb (pr_index r) (fst x))). f_equal.
        apply filter_ext. intros y. rewrite work_ok. reflexivity. }
      rewrite Fm. destruct (filter (fun y => Z.eqb (fst y) (fst x)) rows) as [|y0 ys] eqn:Ef.
      - exfalso. assert (X : In x (filter (fun y => Z.eqb (fst y) (fst x)) rows)) by (apply filter_In; split; [apply I; left; reflexivity|apply Z.eqb_refl]).
        rewrite Ef in X. exact X.
      - cbn [map]. f_equal. rewrite map_map. reflexivity. }
    apply G. intros x X; exact X.
  Qed.
  Lemma flat_length_one {A B} (g : A -> list B) l : (forall x, In x l -> 1 <= length (g x)) -> length (flat_map g l) = length l ->
    forall x, In x l -> length (g x) = 1.
  Proof.
    intros H E.
    assert (G : forall l, (forall x, In x l -> 1 <= length (g x)) -> length l <= length (flat_map g l)).
    { induction l0 as [|a l0 IH]; intros K; cbn; [lia|]. rewrite app_length. pose proof (K a (or_introl eq_refl)).
      pose proof (IH (fun x X => K x (or_intror X))). lia. }
    induction l as [|a l IH]; intros x X; cbn in *; [tauto|]. rewrite app_length in E.
    pose proof (G l (fun y Y => H y (or_intror Y))). pose proof (H a (or_introl eq_refl)).
    destruct X as [<-|X]; [lia|]. apply IH; auto. lia.
  Qed.
  Lemma serial_agree : rows <> [] -> (snd (serial work c Absent) = Ok (full_table work rows) <-> NoDup (map fst rows)).
  Proof.
    intros Hr. split.
    - intros E. rewrite (serial_any Hr) in E. apply Ok_inj in E.
      assert (L : length repeated_table = length rows) by (rewrite E; apply map_length). unfold repeated_table in L.
      assert (M : forall x, In x rows -> 1 <= length (map (fun y : Z * P => (x, Some (work (fst y) (snd y)))) (filter (fun y => Z.eqb (fst y) (fst x)) rows))).
      { intros x X. rewrite map_length. assert (Y : In x (filter (fun y => Z.eqb (fst y) (fst x)) rows)) by (apply filter_In; split; [exact X|apply Z.eqb_refl]).
        destruct (filter (fun y => Z.eqb (fst y) (fst x)) rows); [contradiction|cbn; lia]. }
      pose proof (flat_length_one (fun x => map (fun y : Z * P => (x, Some (work (fst y) (snd y)))) (filter (fun y => Z.eqb (fst y) (fst x)) rows)) rows M L) as G.
      cbn beta in G.
      assert (D : forall l1 x l2, rows = l1 ++ x :: l2 -> ~ In (fst x) (map fst l2)).
      { intros l1 x l2 El X. assert (In x rows) by (rewrite El; apply in_or_app; right; left; reflexivity). specialize (G x H).
        rewrite map_length in G. rewrite El in G. rewrite filter_app in G. cbn [filter] in G. rewrite Z.eqb_refl in G.
        apply in_map_iff in X. destruct X as (y & Ey & Y).
        assert (Z : In y (filter (fun z => Z.eqb (fst z) (fst x)) l2)) by (apply filter_In; split; [exact Y|rewrite Ey; apply Z.eqb_refl]).
        rewrite app_length in G. cbn [length] in G. destruct (filter (fun z => Z.eqb (fst z) (fst x)) l2); [contradiction|cbn [length] in G; lia]. }
      clear - D. induction rows as [|x l IH]; cbn; [constructor|]. constructor.
      + exact (D [] x l eq_refl).
      + apply IH. intros l1 y l2 El. apply (D (x :: l1) y l2). rewrite El. reflexivity.
    - intros N. apply serial_table; auto. split; [discriminate|cbn; tauto].
  Qed.
End Serial.

(** *** Batches of size 0 *)
Section Zero.
  Context {P V : Type} (work : Z -> P -> presult V) (c : config P) (f : file V).
  Hypothesis batch_zero : k_batch c = 0%Z.
  Hypothesis file_ok : readable f.
  Hypothesis some_work : pending c f <> [].
  Notation todo := (todo_of c f).
  Notation sys := (sys P V).
  Lemma todo_some : 0 < length todo.
  Proof.
    assert (E : extract todo = pending c f) by (rewrite todo_file; destruct f; auto; contradiction file_ok; reflexivity).
    rewrite <- (map_length (fun x : nat * Z * P => (snd (fst x), snd x)) todo). change (map _ todo) with (extract todo). rewrite E.
    destruct (pending c f); [contradiction|cbn; lia].
  Qed.
  Record empty_inv (s : sys) (ph : list (phase (P := P))) : Prop := {
    z_workers : s_workers s = map (shape work) ph;
    z_number : length ph = k_workers c;
    z_next : s_next s = 0%Z;
    z_completed : s_completed s = 0;
    z_phases : forall a, In a ph -> a = Idle \/ a = Sent [] \/ a = Working [] \/ a = Done [];
    z_pc : match s_pc s with
           | PPrime k => forall j a, nth_error ph j = Some a -> (a = Idle <-> k <= j)
           | PLoop => forall a, In a ph -> a <> Idle
           | PRecord k l => l = [] /\ k < length ph /\ forall j a, nth_error ph j = Some a -> (a = Idle <-> j = k)
           | _ => False
           end;
    z_computed : s_computed s = [];
    z_file : s_file s = f;
    z_table : s_table s = None;
    z_sent : forall m, In m (s_sent s) -> snd m = Batch []
  }.
  Lemma zero_dispatch k s ph pc' : empty_inv s ph -> nth_error ph k = Some Idle ->
    (forall j a, nth_error (upd k (Sent []) ph) j = Some a -> match pc' with PPrime k' => a = Idle <-> k' <= j | PLoop => a <> Idle | _ => False end) ->
    (match pc' with PPrime _ | PLoop => True | _ => False end) ->
    empty_inv (set_pc pc' (dispatch c todo k s)) (upd k (Sent []) ph).
  Proof.
    intros [Zw Zn Zx Zc Zp Zpc Zm Zf Zt Zs] K Hpc Hx.
    assert (W : nth_error (s_workers s) k = Some (shape work Idle)) by (rewrite Zw; apply map_nth_error; exact K).
    pose proof todo_some as L. unfold dispatch. rewrite Zx, batch_zero. destruct (Z.ltb_spec 0 (Z.of_nat (length todo))); [|lia].
    replace (Z.min (0 + 0) (Z.of_nat (length todo))) with 0%Z by lia. change (zslice todo 0 0) with (@nil (nat * Z * P)).
    unfold send. rewrite W. constructor; cbn; auto.
    - rewrite Zw. change {| w_in := _; w_state := _; w_out := _ |} with (shape work (Sent (@nil (Z * P)))). apply upd_map.
    - rewrite upd_length. exact Zn.
    - intros a A. apply upd_in in A. destruct A as [->|A]; auto.
    - destruct pc'; try contradiction; [auto|]. intros a A. apply In_nth_error in A. destruct A as (j & A). exact (Hpc j a A).
    - intros m M. apply in_app_or in M. destruct M as [M|[<-|[]]]; auto.
  Qed.
  Lemma zero_worker k s ph a b pc' computed' : empty_inv s ph -> nth_error ph k = Some a -> (b = Idle \/ b = Sent [] \/ b = Working [] \/ b = Done []) ->
    (match pc' with
     | PPrime k' => forall j a, nth_error (upd k b ph) j = Some a -> (a = Idle <-> k' <= j)
     | PLoop => forall a, In a (upd k b ph) -> a <> Idle
     | PRecord k' l => l = [] /\ k' < length ph /\ forall j a, nth_error (upd k b ph) j = Some a -> (a = Idle <-> j = k')
     | _ => False end) -> computed' = [] ->
    empty_inv {| s_pc := pc'; s_next := s_next s; s_results := s_results s; s_since := s_since s; s_completed := s_completed s; s_file := s_file s;
           s_table := s_table s; s_workers := upd k (shape work b) (s_workers s); s_sent := s_sent s; s_computed := computed' |} (upd k b ph).
  Proof.
    intros [Zw Zn Zx Zc Zp Zpc Zm Zf Zt Zs] K Hb Hpc Hc. constructor; cbn; auto.
    - rewrite Zw. apply upd_map.
    - rewrite upd_length. exact Zn.
    - intros x A. apply upd_in in A. destruct A as [->|A]; auto.
    - rewrite upd_length. exact Hpc.
  Qed.
  Lemma zero_same k s ph a b : empty_inv s ph -> nth_error ph k = Some a -> a <> Idle -> b <> Idle ->
    (match s_pc s with
     | PPrime k' => forall j a, nth_error (upd k b ph) j = Some a -> (a = Idle <-> k' <= j)
     | PLoop => forall a, In a (upd k b ph) -> a <> Idle
     | PRecord k' l => l = [] /\ k' < length ph /\ forall j a, nth_error (upd k b ph) j = Some a -> (a = Idle <-> j = k')
     | _ => False end).
  Proof.
    intros [Zw Zn Zx Zc Zp Zpc Zm Zf Zt Zs] K A B.
    assert (G : forall Q : nat -> Prop, (forall j y, nth_error ph j = Some y -> (y = Idle <-> Q j)) ->
                (forall j y, nth_error (upd k b ph) j = Some y -> (y = Idle <-> Q j))).
    { intros Q H j y. rewrite nth_error_upd. destruct (Nat.eqb_spec j k) as [->|D]; [|apply H].
      rewrite K. intros E. apply Some_inj in E. subst y. specialize (H k a K). split; intros X; [contradiction|]. apply H in X. contradiction. }
    destruct (s_pc s) as [|q|q| |q l| | |e]; try contradiction.
    - exact (G (fun j => q <= j) Zpc).
    - intros y Y. apply upd_in in Y. destruct Y as [->|Y]; auto.
    - destruct Zpc as (Z1 & Z2 & Z3). split; [auto|]. split; [auto|]. exact (G (fun j => j = q) Z3).
  Qed.
  Lemma zero_step x s s' : (exists ph, empty_inv s ph) -> act work c todo x s = Some s' -> exists ph, empty_inv s' ph.
  Proof.
    intros (ph & E) H. pose proof E as [Zw Zn Zx Zc Zp Zpc Zm Zf Zt Zs]. pose proof todo_some as L.
    destruct x as [|k|k]; cbn [act] in H.
    - unfold master_step in H. destruct (s_pc s) as [|k|k| |k l| | |e] eqn:Epc; try contradiction.
      + apply Some_inj in H. subst s'. destruct (Nat.ltb_spec k (k_workers c)) as [Lk|Lk].
        * destruct (nth_error ph k) as [a|] eqn:K; [|apply nth_error_None in K; lia].
          assert (a = Idle) by (apply (Zpc k a K); lia). subst a. eexists. apply (zero_dispatch k s ph); auto.
          intros j y. rewrite nth_error_upd. destruct (Nat.eqb_spec j k) as [->|D].
          -- rewrite K. intros Ey. apply Some_inj in Ey. subst y. split; [discriminate|lia].
          -- intros Ey. rewrite (Zpc j y Ey). lia.
        * exists ph. constructor; cbn; auto. intros a Y. apply In_nth_error in Y. destruct Y as (j & Ey).
          intros X. apply (Zpc j a Ey) in X. assert (j < length ph) by (apply nth_error_Some; rewrite Ey; discriminate). lia.
      + rewrite Zc in H. apply Nat.ltb_lt in L. rewrite L in H. discriminate.
      + destruct Zpc as (-> & Kl & A0). apply Some_inj in H. subst s'.
        destruct (nth_error ph k) as [a|] eqn:K; [|apply nth_error_None in K; lia].
        assert (a = Idle) by (apply (A0 k a K); reflexivity). subst a. eexists. apply (zero_dispatch k s ph); auto.
        intros j y. rewrite nth_error_upd. destruct (Nat.eqb_spec j k) as [->|D].
        * rewrite K. intros Ey. apply Some_inj in Ey. subst y. discriminate.
        * intros Ey X. apply (A0 j y Ey) in X. contradiction.
    - unfold receive in H. destruct (s_pc s) eqn:Epc; try discriminate.
      destruct (nth_error (s_workers s) k) as [w|] eqn:W; [|discriminate].
      rewrite Zw in W. rewrite nth_error_map in W. destruct (nth_error ph k) as [a|] eqn:K; [|discriminate]. apply Some_inj in W. subst w.
      pose proof (Zp a (nth_error_In _ _ K)) as Ha. destruct Ha as [->|[->|[->|Ha]]]; try discriminate. subst a. cbn [shape w_out] in H.
      destruct (s_completed s <? length todo) eqn:Hc; [|discriminate]. apply Some_inj in H. subst s'. eexists.
      unfold set_pc, set_worker. cbn [s_pc s_next s_results s_since s_completed s_file s_table s_workers s_sent s_computed].
      change {| w_in := _; w_state := _; w_out := _ |} with (shape work (@Idle P)).
      apply (zero_worker k s ph (Done [])); auto. cbn. split; [auto|]. split; [apply nth_error_Some; rewrite K; discriminate|].
      intros j y. rewrite nth_error_upd. destruct (Nat.eqb_spec j k) as [->|D].
      + rewrite K. intros Ey. apply Some_inj in Ey. subst y. split; auto.
      + intros Ey. split; intros X; [|contradiction]. subst y. exfalso. apply (Zpc Idle); [eapply nth_error_In, Ey|reflexivity].
    - unfold worker_step in H. destruct (nth_error (s_workers s) k) as [w|] eqn:W; [|discriminate].
      rewrite Zw in W. rewrite nth_error_map in W. destruct (nth_error ph k) as [a|] eqn:K; [|discriminate]. apply Some_inj in W. subst w.
      pose proof (Zp a (nth_error_In _ _ K)) as Ha. destruct Ha as [->|[->|[->|Ha]]]; cbn [shape w_state w_in w_out] in H; try discriminate.
      + apply Some_inj in H. subst s'. eexists. unfold set_worker.
        change {| w_in := _; w_state := _; w_out := _ |} with (shape work (Working (@nil (Z * P)))).
        apply (zero_worker k s ph (Sent [])); auto. apply (zero_same k s ph (Sent [])); auto; discriminate.
      + apply Some_inj in H. subst s'. eexists.
        change {| w_in := []; w_state := Waiting; w_out := _ |} with (shape work (Done (@nil (Z * P)))).
        apply (zero_worker k s ph (Working [])); auto; [|rewrite Zm; reflexivity]. apply (zero_same k s ph (Working [])); auto; discriminate.
      + subst a. discriminate.
  Qed.
  Lemma zero_reached s : reached work c f s -> exists ph, empty_inv s ph.
  Proof.
    intros (l & R). eapply (run_invariant work c todo (fun s => exists ph, empty_inv s ph) (zero_step)); [|exact R].
    exists (map (fun _ => Idle) (seq 0 (k_workers c))). unfold boot. destruct (load_checkpoint f) as [ck|e] eqn:E.
    - assert (Et : todo = to_process (k_rows c) ck) by (unfold todo_of; rewrite E; reflexivity).
      assert (A : forall a : phase (P := P), In a (map (fun _ => Idle) (seq 0 (k_workers c))) -> a = Idle).
      { intros a H. apply in_map_iff in H. destruct H as (_ & <- & _). reflexivity. }
      constructor; cbn; auto.
      + rewrite map_map. reflexivity.
      + rewrite map_length, seq_length. reflexivity.
      + pose proof todo_some as L. rewrite Et in L. destruct (to_process (k_rows c) ck); [cbn in L; lia|].
        intros j a H. apply nth_error_In in H. rewrite (A a H). split; [lia|auto].
      + tauto.
    - destruct f; cbn in E; try discriminate. contradiction file_ok. reflexivity.
  Qed.
  Lemma zero_forever s : 1 <= k_workers c -> reached work c f s ->
    (exists x s', act work c todo x s = Some s') /\ s_pc s <> PEnded /\ s_computed s = [] /\ s_table s = None /\ s_file s = f /\
    forall m, In m (s_sent s) -> snd m = Batch [].
  Proof.
    intros Hw R. destruct (zero_reached s R) as (ph & [Zw Zn Zx Zc Zp Zpc Zm Zf Zt Zs]). pose proof todo_some as L.
    split; [|split; [intros X; rewrite X in Zpc; exact Zpc|auto 10]].
    destruct (s_pc s) as [|k|k| |k l| | |e] eqn:Epc; try contradiction.
    - exists Master. cbn. unfold master_step. rewrite Epc. eauto.
    - destruct ph as [|a ph]; [cbn in Zn; lia|]. pose proof (Zp a (or_introl eq_refl)) as Ha. pose proof (Zpc a (or_introl eq_refl)) as Na.
      destruct Ha as [->|[->|[->|Ha]]]; [contradiction| | |subst a].
      + exists (Worker 0). cbn. unfold worker_step. rewrite Zw. cbn. eauto.
      + exists (Worker 0). cbn. unfold worker_step. rewrite Zw. cbn. eauto.
      + exists (Receive 0). cbn [act]. unfold receive. rewrite Epc, Zw. cbn [map nth_error shape w_out answer]. rewrite Zc. apply Nat.ltb_lt in L. rewrite L. eauto.
    - destruct Zpc as (-> & _). exists Master. cbn. unfold master_step. rewrite Epc. eauto.
  Qed.
End Zero.

(** *** Nothing to do *)
Section Nothing.
  Context {P V : Type} (work : Z -> P -> presult V) (c : config P).
  Lemma nobody_moves s : (exists e, s_pc s = PRaised e) -> (forall w, In w (s_workers s) -> w = idle) ->
    forall todo x, act (V := V) work c todo x s = None.
  Proof.
    intros (e & E) H todo x. destruct x as [|k|k]; cbn.
    - unfold master_step. rewrite E. reflexivity.
    - unfold receive. rewrite E. reflexivity.
    - unfold worker_step. destruct (nth_error (s_workers s) k) as [w|] eqn:W; [|reflexivity]. rewrite (H w (nth_error_In _ _ W)). reflexivity.
  Qed.
  Lemma idle_workers n w : In w (map (fun _ => idle (P := P) (V := V)) (seq 0 n)) -> w = idle.
  Proof. intros H. apply in_map_iff in H. destruct H as (_ & <- & _). reflexivity. Qed.
  Lemma empty_selection f : readable f -> k_rows c = [] ->
    exists s, run work c (todo_of c f) [Master] (boot c f) = Some s /\ s_pc s = PRaised KeyError /\
      (forall x, act work c (todo_of c f) x s = None) /\ s_table s = None /\ s_workers s = map (fun _ => idle) (seq 0 (k_workers c)).
  Proof.
    intros F E. unfold todo_of, boot. destruct (load_checkpoint f) as [ck|e] eqn:L.
    - rewrite E. cbn [to_process length seq combine map filter].
      assert (I : initial_results (P := P) (V := V) [] ck = []).
      { unfold initial_results. cbn [map]. destruct ck as [l|]; [|reflexivity]. clear L. induction l as [|r l IH]; cbn; [reflexivity|exact IH]. }
      rewrite I. eexists. split; [reflexivity|]. cbn. split; [auto|]. split; [|auto].
      apply nobody_moves; cbn; [eauto|]. apply idle_workers.
    - destruct f; cbn in L; try discriminate. contradiction F. reflexivity.
  Qed.
  Lemma torn_file : s_pc (boot c (Corrupt (V := V))) = PRaised GenericException /\
    (forall x, act work c (todo_of c (Corrupt (V := V))) x (boot c Corrupt) = None) /\
    s_workers (boot c (Corrupt (V := V))) = map (fun _ => idle) (seq 0 (k_workers c)) /\ serial work c Corrupt = (Corrupt, Err GenericException).
  Proof.
    split; [reflexivity|]. split; [|auto]. apply nobody_moves; [eexists; reflexivity|]. apply idle_workers.
  Qed.
End Nothing.
