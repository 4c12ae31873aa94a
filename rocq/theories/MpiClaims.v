(** The statements about parallel runs in the form in which they are listed, and data for the examples. *)
From Verif Require Import Base BaseLemmas PostModel MpiModel MpiSpec MpiLemmas MpiRun MpiInv MpiSafe MpiFinal MpiMore.
From Coq Require Import Lia Permutation.
Open Scope list_scope.
Open Scope nat_scope.

Section Claims.
  Context {P V : Type} (work : Z -> P -> presult V) (post : list (Z * P)).
  Hypothesis post_ok : consistent post.
  Hypothesis work_ok : labelled work.
  Context (c : config P).
  Hypothesis rows_ok : incl (k_rows c) post.
  Context (f : file V).
  Hypothesis file_ok : left_behind work post f.
  Hypothesis batch_pos : (1 <= k_batch c)%Z.
  Let right : right_file work post f := left_right work post work_ok f file_ok.

  Lemma same_table s c' f' : NoDup (map fst (k_rows c)) -> k_rows c <> [] -> reached work c f s -> s_pc s = PEnded ->
    k_rows c' = k_rows c -> left_behind work post f' -> exists t, s_table s = Some t /\ snd (serial work c' f') = Ok t.
  Proof.
    intros N R0 R E C' L'. exists (full_table work (k_rows c)). split.
    - exact (ended_table work post post_ok work_ok c rows_ok f batch_pos right s R0 R E).
    - rewrite <- C'. apply (serial_table work post post_ok work_ok c'); rewrite ?C'; auto.
      exact (left_right work post work_ok f' L').
  Qed.
  Lemma every_moment s : reached work c f s ->
    (exists n, concat (map batch_of (s_sent s)) = firstn n (pending c f)) /\
    (forall b, In (Batch b) (map snd (s_sent s)) -> b <> [] /\ (Z.of_nat (length b) <= k_batch c)%Z) /\
    (forall k, k < k_workers c -> exists l, to_worker k (s_sent s) = map Batch l \/ to_worker k (s_sent s) = map Batch l ++ [Stop]) /\
    (k_rows c <> [] -> forall e, s_pc s <> PRaised e).
  Proof.
    intros R. split; [exact (sent_prefix work post post_ok work_ok c rows_ok f batch_pos right s R)|].
    split; [exact (batch_sizes work post post_ok work_ok c rows_ok f batch_pos right s R)|]. split.
    - intros k K. exact (stops_last work post post_ok work_ok c rows_ok f batch_pos right s k R K).
    - intros N e E. destruct (reached_whole work post post_ok work_ok c rows_ok f batch_pos right s R) as (_ & _ & T & _).
      unfold tabled in T. rewrite E in T. contradiction.
  Qed.
  Lemma at_end s : reached work c f s -> s_pc s = PEnded ->
    concat (map batch_of (s_sent s)) = pending c f /\ Permutation (s_computed s) (pending c f) /\
    forall k, k < k_workers c -> exists l, to_worker k (s_sent s) = map Batch l ++ [Stop].
  Proof. exact (ended_history work post post_ok work_ok c rows_ok f batch_pos right s). Qed.
  Lemma terminates l s : run work c (todo_of c f) l (boot c f) = Some s ->
    length l <= 10 * length (pending c f) + 2 * k_workers c + 4 /\
    (k_rows c <> [] -> 1 <= k_workers c -> all_done s \/ exists x s', act work c (todo_of c f) x s = Some s').
  Proof.
    intros R. split; [exact (bounded_run work post c f batch_pos right l s R)|]. intros R0 W.
    assert (D : (forall x, act work c (todo_of c f) x s = None) \/ exists x s', act work c (todo_of c f) x s = Some s').
    { assert (Big : forall k, length (s_workers s) <= k -> act work c (todo_of c f) (Receive k) s = None /\ act work c (todo_of c f) (Worker k) s = None).
      { intros k K. apply nth_error_None in K. cbn. unfold receive, worker_step. rewrite K. destruct (s_pc s); auto. }
      assert (G : forall n, (forall k, k < n -> act work c (todo_of c f) (Receive k) s = None /\ act work c (todo_of c f) (Worker k) s = None) \/
                  exists x s', act work c (todo_of c f) x s = Some s').
      { induction n as [|n [IH|IH]]; [left; lia| |auto]. destruct (act work c (todo_of c f) (Receive n) s) eqn:A; [right; eauto|].
        destruct (act work c (todo_of c f) (Worker n) s) eqn:B; [right; eauto|]. left. intros k K.
        destruct (Nat.eq_dec k n) as [->|Kn]; [auto|apply IH; lia]. }
      destruct (act work c (todo_of c f) Master s) eqn:M; [right; eauto|]. destruct (G (length (s_workers s))) as [H|H]; [left|auto].
      intros [|k|k]; [exact M| |]; (destruct (Nat.lt_ge_cases k (length (s_workers s))) as [K|K]; [apply H|apply Big]; auto). }
    destruct D as [D|D]; [left|auto].
    apply (stuck_done work post post_ok work_ok c rows_ok f batch_pos right s R0 W); auto. exists l. exact R.
  Qed.
  Lemma resume s : k_rows c <> [] -> reached work c f s ->
    (s_pc s = PEnded -> s_table s = Some (full_table work (k_rows c))) /\
    (forall i p, In (i, p) (s_computed s) -> ~ In i (map pr_index (file_rows f))).
  Proof.
    intros R0 R. split; [exact (ended_table work post post_ok work_ok c rows_ok f batch_pos right s R0 R)|].
    intros i p I. apply (computed_pending work post post_ok work_ok c rows_ok f batch_pos right s R) in I.
    apply pending_in in I. apply I.
  Qed.
  Lemma right_checkpoint s : reached work c f s -> forall r, In r (file_rows (s_file s)) -> exists p, In (pr_index r, p) post /\ r = work (pr_index r) p.
  Proof. intros R r I. assert (L : left_behind work post (s_file s)) by (apply (distributed work post c f); auto). apply (left_right work post work_ok _ L). exact I. Qed.
  Lemma nothing s : k_rows c <> [] -> pending c f = [] -> reached work c f s ->
    s_computed s = [] /\ (forall m, In m (s_sent s) -> snd m = Stop) /\
    (s_pc s = PEnded -> s_table s = Some (full_table work (k_rows c)) /\ forall k, k < k_workers c -> to_worker k (s_sent s) = [Stop]).
  Proof.
    intros R0 Pn R. destruct (every_moment s R) as ((n & Sn) & B & St & _).
    assert (M : forall m, In m (s_sent s) -> snd m = Stop).
    { intros [k [b|]] I; [|reflexivity]. exfalso. destruct (B b) as (Nb & _); [apply (in_map snd) in I; exact I|].
      rewrite Pn, firstn_nil in Sn. destruct b as [|x b]; [auto|].
      assert (X : In x (concat (map batch_of (s_sent s)))) by (apply in_concat; exists (x :: b); split; [apply in_map_iff; exists (k, Batch (x :: b)); auto|left; reflexivity]).
      rewrite Sn in X. exact X. }
    split; [|split; [exact M|]].
    - destruct (s_computed s) as [|[i p] l] eqn:E; [reflexivity|]. exfalso.
      pose proof (computed_pending work post post_ok work_ok c rows_ok f batch_pos right s R i p) as X. rewrite E, Pn in X. apply X. left. reflexivity.
    - intros E. split; [apply resume; auto|]. intros k K. destruct (at_end s R E) as (_ & _ & X). destruct (X k K) as (l & El).
      destruct l as [|b l]; [exact El|]. exfalso.
      assert (I : In (Batch b) (to_worker k (s_sent s))) by (rewrite El; left; reflexivity). unfold to_worker in I. apply in_map_iff in I.
      destruct I as (m & Em & I). apply filter_In in I. destruct I as (I & _). rewrite (M m I) in Em. discriminate.
  Qed.
End Claims.

Section SerialLag.
  Context {P V : Type} (work : Z -> P -> presult V) (c : config P).
  (** In the serial run, after n of the pending samples. *)
  Lemma serial_lag every f n ck : (1 <= every)%Z -> k_save_every c = Some every -> load_checkpoint f = Ok ck ->
    let s := serial_loop work c (firstn n (to_process (k_rows c) ck)) (serial_start c ck f) in
    (exists missing, (Z.of_nat (length missing) < every)%Z /\ forall r, In r (somes (e_results s)) -> In r missing \/ In r (file_rows (serial_crash work c f n))) /\
    forall r, In r (somes (e_results (serial_loop work c (to_process (k_rows c) ck) (serial_start c ck f)))) -> In r (file_rows (fst (serial work c f))).
  Proof.
    intros Ev Sv E s. assert (B : forall l, let s := serial_loop work c l (serial_start c ck f) in behind every (e_results s) (e_since s) (e_file s)).
    { intros l. apply (serial_behind work c every Ev Sv). cbn. apply (boot_behind c every Ev). exact E. }
    split.
    - destruct (B (firstn n (to_process (k_rows c) ck))) as (B1 & missing & L & H). exists missing. split; [lia|].
      unfold serial_crash. rewrite E. exact H.
    - intros r R. unfold serial. rewrite E. cbn [fst].
      destruct (to_process (k_rows c) ck) as [|x l] eqn:Et; [cbn in R; exact (initial_from (k_rows c) f ck r E R)|].
      apply (last_behind c every Ev Sv); [|exact R]. apply B.
  Qed.

  (** What the loop computes stays in the results. *)
  Lemma loop_length l : forall s, length (e_results (serial_loop work c l s)) = length (e_results s).
  Proof. induction l as [|((k, i), p) l IH]; intros s; [reflexivity|]. cbn [serial_loop]. rewrite IH. cbn. apply upd_length. Qed.
  Lemma loop_other l : forall s j, ~ In j (map (fun x => fst (fst x)) l) ->
    nth_error (e_results (serial_loop work c l s)) j = nth_error (e_results s) j.
  Proof.
    induction l as [|((k, i), p) l IH]; intros s j N; [reflexivity|]. cbn [serial_loop]. rewrite IH by (intros H; apply N; now right).
    cbn. apply upd_other. intros ->. apply N. now left.
  Qed.
  Lemma loop_done l : forall s k i p, NoDup (map (fun x => fst (fst x)) l) -> In (k, i, p) l -> k < length (e_results s) ->
    nth_error (e_results (serial_loop work c l s)) k = Some (Some (work i p)).
  Proof.
    induction l as [|((k', i'), p') l IH]; intros s k i p N I K; [contradiction|]. cbn [map fst] in N. apply NoDup_cons_iff in N. destruct N as [N1 N2].
    cbn [serial_loop]. destruct I as [I|I].
    - injection I as -> -> ->. rewrite loop_other by exact N1. cbn. apply upd_same. exact K.
    - apply IH; auto. cbn. rewrite upd_length. exact K.
  Qed.
End SerialLag.

(** Data for the examples: a sample's parameter is a number, its result the label and twice that number. *)
Definition toy_work (i : Z) (p : Z) : presult Z :=
  {| pr_index := i; pr_status := "success"%string; pr_egw := Some (2 * p)%Z; pr_lgw := Some p; pr_error := None |}.
Definition toy_post : list (Z * Z) := [(4, 10); (7, 20); (2, 30); (9, 40); (5, 50)]%Z.
Definition toy_config : config Z := {| k_rows := toy_post; k_save_every := Some 2%Z; k_batch := 2%Z; k_workers := 2 |}.
Definition toy_part : config Z := {| k_rows := [(7, 20); (9, 40)]%Z; k_save_every := Some 1%Z; k_batch := 5%Z; k_workers := 3 |}.
(** A scheduler: the first enabled choice of a list that is worked through again and again. *)
Fixpoint drive (c : config Z) (todo : list (nat * Z * Z)) (order : list choice) (fuel : nat) (s : sys Z Z) : list choice :=
  match fuel with
  | 0 => []
  | S n =>
      match find (fun x => match act toy_work c todo x s with Some _ => true | None => false end) order with
      | Some x => match act toy_work c todo x s with Some s' => x :: drive c todo order n s' | None => [] end
      | None => []
      end
  end.
Definition toy_order : list choice := [Worker 1; Receive 1; Master; Worker 0; Receive 0; Worker 2; Receive 2].
Definition toy_schedule (c : config Z) (f : file Z) : list choice := drive c (todo_of c f) toy_order 200 (boot c f).
Definition toy_end (c : config Z) (f : file Z) : sys Z Z :=
  match run toy_work c (todo_of c f) (toy_schedule c f) (boot c f) with Some s => s | None => boot c f end.
Definition toy_middle (c : config Z) (f : file Z) (n : nat) : sys Z Z :=
  match run toy_work c (todo_of c f) (firstn n (toy_schedule c f)) (boot c f) with Some s => s | None => boot c f end.

Lemma toy_labelled : labelled toy_work.
Proof. intros i p. reflexivity. Qed.
Lemma toy_consistent : consistent toy_post.
Proof.
  intros i p q. cbn. intros H K.
  repeat (destruct H as [H|H]; [injection H as <- <-; repeat (destruct K as [K|K]; [injection K; congruence|]); contradiction|]). contradiction.
Qed.
Lemma toy_reached c f : reached toy_work c f (toy_end c f).
Proof.
  unfold toy_end. destruct (run toy_work c (todo_of c f) (toy_schedule c f) (boot c f)) as [s|] eqn:E; [exists (toy_schedule c f); exact E|].
  exists []. reflexivity.
Qed.
Lemma toy_reached_middle c f n : reached toy_work c f (toy_middle c f n).
Proof.
  unfold toy_middle. destruct (run toy_work c (todo_of c f) (firstn n (toy_schedule c f)) (boot c f)) as [s|] eqn:E; [exists (firstn n (toy_schedule c f)); exact E|].
  exists []. reflexivity.
Qed.
Lemma toy_part_in : incl (k_rows toy_part) toy_post.
Proof. intros x. cbn. intuition. Qed.
(** The file left by a complete run over two samples. *)
Definition toy_file : file Z := s_file (toy_end toy_part Absent).
Lemma toy_left : left_behind toy_work toy_post toy_file.
Proof. apply (distributed toy_work toy_post toy_part Absent); [constructor|exact toy_part_in|apply toy_reached]. Qed.

Lemma lag_claim : forall P V (work : Z -> P -> presult V) (post : list (Z * P)),
  consistent post -> labelled work ->
  forall (c : config P) (every : Z) (f : file V) (s : sys P V),
  incl (k_rows c) post -> left_behind work post f -> (1 <= k_batch c)%Z -> (1 <= every)%Z -> k_save_every c = Some every ->
  reached work c f s ->
  (exists missing, (Z.of_nat (length missing) <= every + k_batch c - 1)%Z /\
    forall r, In r (received s) -> In r missing \/ In r (file_rows (s_file s))) /\
  (s_pc s = PEnded -> forall r, In r (received s) -> In r (file_rows (s_file s))).
Proof.
  intros P V work post H W c every f s I L B E S R. apply (checkpoint_lag work c every E S post f s); auto.
  exact (left_right work post W f L).
Qed.
Lemma agree_claim : forall P V (work : Z -> P -> presult V) (post : list (Z * P)),
  consistent post -> labelled work ->
  forall (c : config P) (f : file V) (s : sys P V),
  incl (k_rows c) post -> left_behind work post f -> (1 <= k_batch c)%Z -> k_rows c <> [] -> reached work c f s -> s_pc s = PEnded ->
  exists t, s_table s = Some t /\ map fst t = k_rows c /\ (snd (serial work c Absent) = Ok t <-> NoDup (map fst (k_rows c))).
Proof.
  intros P V work post H W c f s I L B N R E. exists (full_table work (k_rows c)). split; [exact (proj1 (resume work post H W c I f L B s N R) E)|].
  split; [unfold full_table; rewrite map_map; apply map_id|]. apply (serial_agree work post); auto.
Qed.
(** A selection with a repeated label. *)
Definition toy_twice : config Z := {| k_rows := [(7, 20); (9, 40); (7, 20)]%Z; k_save_every := None; k_batch := 2%Z; k_workers := 2 |}.
