(** Properties of parallel post-processing of posterior samples. *)
From Verif Require Import Base PostModel MpiModel MpiSpec MpiMore MpiClaims MpiKept.
From Coq Require Import Lia Permutation.
Open Scope list_scope.
Open Scope nat_scope.

(** C48.  Selected labels are distinct.  Whatever the schedule, number of workers, batch size >= 1, save interval and
    history of earlier runs in either directory, a distributed run that has ended wrote the table that the serial run
    over the same samples returns. *)
Theorem C48_same_table : forall P V (work : Z -> P -> presult V) (post : list (Z * P)),
  consistent post -> labelled work ->
  forall (c : config P) (f : file V) (s : sys P V) (c' : config P) (f' : file V),
  incl (k_rows c) post -> left_behind work post f -> (1 <= k_batch c)%Z ->
  NoDup (map fst (k_rows c)) -> k_rows c <> [] -> reached work c f s -> s_pc s = PEnded ->
  k_rows c' = k_rows c -> left_behind work post f' ->
  exists t, s_table s = Some t /\ snd (serial work c' f') = Ok t.
Proof. intros P V work post H W c f s c' f' I L B. exact (same_table work post H W c I f L B s c' f'). Qed.
Print Assumptions C48_same_table.
Example C48_ex :
  s_pc (toy_end toy_config toy_file) = PEnded /\ s_table (toy_end toy_config toy_file) = Some (full_table toy_work toy_post) /\
  snd (serial toy_work toy_config Absent) = Ok (full_table toy_work toy_post) /\ NoDup (map fst toy_post) /\
  left_behind toy_work toy_post toy_file /\ reached toy_work toy_config toy_file (toy_end toy_config toy_file).
Proof.
  split; [vm_compute; reflexivity|]. split; [vm_compute; reflexivity|]. split; [vm_compute; reflexivity|].
  split; [repeat constructor; cbn; intuition discriminate|]. split; [exact toy_left|apply toy_reached].
Qed.

(** C49.  When the master has ended: the batches it sent, in the order sent, are the samples to compute, each once; the
    workers computed exactly these; and every worker was sent some batches and then one STOP. *)
Theorem C49_once : forall P V (work : Z -> P -> presult V) (post : list (Z * P)),
  consistent post -> labelled work ->
  forall (c : config P) (f : file V) (s : sys P V),
  incl (k_rows c) post -> left_behind work post f -> (1 <= k_batch c)%Z -> reached work c f s -> s_pc s = PEnded ->
  concat (map batch_of (s_sent s)) = pending c f /\ Permutation (s_computed s) (pending c f) /\
  forall k, k < k_workers c -> exists l, to_worker k (s_sent s) = map Batch l ++ [Stop].
Proof. intros P V work post H W c f s I L B. exact (at_end work post H W c I f L B s). Qed.
Print Assumptions C49_once.
(** C49, at every moment of every schedule: what was sent so far is an initial part of the samples to compute; batches
    are not empty and not longer than batch_size; nothing is sent to a worker after its STOP; the master has not raised. *)
Theorem C49_every_moment : forall P V (work : Z -> P -> presult V) (post : list (Z * P)),
  consistent post -> labelled work ->
  forall (c : config P) (f : file V) (s : sys P V),
  incl (k_rows c) post -> left_behind work post f -> (1 <= k_batch c)%Z -> reached work c f s ->
  (exists n, concat (map batch_of (s_sent s)) = firstn n (pending c f)) /\
  (forall b, In (Batch b) (map snd (s_sent s)) -> b <> [] /\ (Z.of_nat (length b) <= k_batch c)%Z) /\
  (forall k, k < k_workers c -> exists l, to_worker k (s_sent s) = map Batch l \/ to_worker k (s_sent s) = map Batch l ++ [Stop]) /\
  (k_rows c <> [] -> forall e, s_pc s <> PRaised e).
Proof. intros P V work post H W c f s I L B. exact (every_moment work post H W c I f L B s). Qed.
Print Assumptions C49_every_moment.
(** C49.  No schedule is longer than 10 steps per sample and 2 per worker and 4, and as long as the master has not ended or
    a worker has not stopped somebody can make a step. *)
Theorem C49_terminates : forall P V (work : Z -> P -> presult V) (post : list (Z * P)),
  consistent post -> labelled work ->
  forall (c : config P) (f : file V) (schedule : list choice) (s : sys P V),
  incl (k_rows c) post -> left_behind work post f -> (1 <= k_batch c)%Z ->
  run work c (todo_of c f) schedule (boot c f) = Some s ->
  length schedule <= 10 * length (pending c f) + 2 * k_workers c + 4 /\
  (k_rows c <> [] -> 1 <= k_workers c -> all_done s \/ exists x s', act work c (todo_of c f) x s = Some s').
Proof. intros P V work post H W c f l s I L B. exact (terminates work post H W c I f L B l s). Qed.
Print Assumptions C49_terminates.
Example C49_ex :
  pending toy_config toy_file = [(4, 10); (2, 30); (5, 50)]%Z /\
  s_sent (toy_end toy_config toy_file) = [(0, Batch [(4, 10); (2, 30)]%Z); (1, Batch [(5, 50)]%Z); (1, Stop); (0, Stop)] /\
  s_computed (toy_end toy_config toy_file) = [(5, 50); (4, 10); (2, 30)]%Z /\
  all_done (toy_end toy_config toy_file) /\ length (toy_schedule toy_config toy_file) = 18 /\
  s_pc (toy_middle toy_config toy_file 6) = PRecord 1 [(5%Z, toy_work 5 50)].
Proof. repeat split; try (vm_compute; reflexivity). vm_compute. repeat constructor. Qed.
(** C49.  With batch_size 0 and something to compute no schedule gets anything done: somebody can always make a step, the
    master has not ended, nothing was computed and every message is an empty batch. *)
Theorem C49_batch_zero : forall P V (work : Z -> P -> presult V) (c : config P) (f : file V) (s : sys P V),
  k_batch c = 0%Z -> readable f -> pending c f <> [] -> 1 <= k_workers c -> reached work c f s ->
  (exists x s', act work c (todo_of c f) x s = Some s') /\ s_pc s <> PEnded /\ s_computed s = [] /\ s_table s = None /\ s_file s = f /\
  forall m, In m (s_sent s) -> snd m = Batch [].
Proof. intros P V work c f s B F N W. exact (zero_forever work c f B F N s W). Qed.
Print Assumptions C49_batch_zero.
Example C49_batch_zero_ex :
  let c := {| k_rows := toy_post; k_save_every := Some 2%Z; k_batch := 0%Z; k_workers := 2 |} in
  length (toy_schedule c Absent) = 200 /\ length (s_sent (toy_end c Absent)) = 51 /\ s_pc (toy_end c Absent) = PLoop /\
  pending c (Absent (V := Z)) <> [].
Proof. vm_compute. repeat split; discriminate. Qed.

(** C50.  After any history of runs that were stopped at any point, a run ends with the table of an uninterrupted run, and
    does not compute a sample whose label is in the checkpoint it started from. *)
Theorem C50_resume : forall P V (work : Z -> P -> presult V) (post : list (Z * P)),
  consistent post -> labelled work ->
  forall (c : config P) (f : file V) (s : sys P V),
  incl (k_rows c) post -> left_behind work post f -> (1 <= k_batch c)%Z -> k_rows c <> [] -> reached work c f s ->
  (s_pc s = PEnded -> s_table s = Some (full_table work (k_rows c))) /\
  (forall i p, In (i, p) (s_computed s) -> ~ In i (map pr_index (file_rows f))).
Proof. intros P V work post H W c f s I L B. exact (resume work post H W c I f L B s). Qed.
Print Assumptions C50_resume.
Example C50_ex :
  toy_file = Rows [toy_work 7 20; toy_work 9 40] /\
  s_pc (toy_end toy_config toy_file) = PEnded /\ map fst (s_computed (toy_end toy_config toy_file)) = [5; 4; 2]%Z.
Proof. vm_compute. auto. Qed.
(** C50 without the assumption that writing the checkpoint is atomic is false: with a file that cannot be parsed the
    distributed run raises at once without telling its workers, which wait forever, and so does the serial run. *)
Theorem C50_torn_refuted : forall P V (work : Z -> P -> presult V) (c : config P),
  s_pc (boot c (Corrupt (V := V))) = PRaised GenericException /\
  (forall x, act work c (todo_of c (Corrupt (V := V))) x (boot c Corrupt) = None) /\
  s_workers (boot c (Corrupt (V := V))) = map (fun _ => idle) (seq 0 (k_workers c)) /\ serial work c Corrupt = (Corrupt, Err GenericException).
Proof. exact @torn_file. Qed.
Print Assumptions C50_torn_refuted.
Example C50_torn_ex : length (s_workers (boot toy_config (Corrupt (V := Z)))) = 2.
Proof. reflexivity. Qed.

(** C51.  After any history, at every moment, every result in the checkpoint is the result of a sample of the posterior,
    under that sample's label. *)
Theorem C51_contents : forall P V (work : Z -> P -> presult V) (post : list (Z * P)),
  labelled work ->
  forall (c : config P) (f : file V) (s : sys P V),
  incl (k_rows c) post -> left_behind work post f -> reached work c f s ->
  forall r, In r (file_rows (s_file s)) -> exists p, In (pr_index r, p) post /\ r = work (pr_index r) p.
Proof. intros P V work post W c f s I L. exact (right_checkpoint work post W c I f L s). Qed.
Print Assumptions C51_contents.
(** C51.  All but save_every + batch_size - 1 of the results the master has received (or loaded) are in the checkpoint,
    and all of them once the master has ended. *)
Theorem C51_lag : forall P V (work : Z -> P -> presult V) (post : list (Z * P)),
  consistent post -> labelled work ->
  forall (c : config P) (every : Z) (f : file V) (s : sys P V),
  incl (k_rows c) post -> left_behind work post f -> (1 <= k_batch c)%Z -> (1 <= every)%Z -> k_save_every c = Some every ->
  reached work c f s ->
  (exists missing, (Z.of_nat (length missing) <= every + k_batch c - 1)%Z /\
    forall r, In r (received s) -> In r missing \/ In r (file_rows (s_file s))) /\
  (s_pc s = PEnded -> forall r, In r (received s) -> In r (file_rows (s_file s))).
Proof. exact @lag_claim. Qed.
Print Assumptions C51_lag.
(** C51 for the serial run stopped after n of the samples it has to compute: fewer than save_every of the results computed so
    far are missing from the checkpoint, and none when the run is complete. *)
Theorem C51_serial_lag : forall P V (work : Z -> P -> presult V) (c : config P) (every : Z) (f : file V) n,
  (1 <= every)%Z -> k_save_every c = Some every -> readable f ->
  (exists missing, (Z.of_nat (length missing) < every)%Z /\
    forall i p, In (i, p) (firstn n (pending c f)) -> In (work i p) missing \/ In (work i p) (file_rows (serial_crash work c f n))) /\
  forall i p, In (i, p) (pending c f) -> In (work i p) (file_rows (fst (serial work c f))).
Proof. exact @serial_lag_computed. Qed.
Print Assumptions C51_serial_lag.
Example C51_ex :
  length (received (toy_middle toy_config Absent 18)) = 5 /\ length (file_rows (s_file (toy_middle toy_config Absent 18))) = 2 /\
  length (received (toy_end toy_config Absent)) = 5 /\ length (file_rows (s_file (toy_end toy_config Absent))) = 5 /\
  length (file_rows (serial_crash toy_work toy_config Absent 3)) = 2.
Proof. vm_compute. auto 10. Qed.

(** C52.  The serial run without a checkpoint, for any selection: every selected row is repeated once for every selected row
    with its label. *)
Theorem C52_serial_repeats : forall P V (work : Z -> P -> presult V) (c : config P),
  labelled work -> k_rows c <> [] ->
  snd (serial work c Absent) = Ok (flat_map (fun x => map (fun y => (x, Some (work (fst y) (snd y))))
    (filter (fun y => Z.eqb (fst y) (fst x)) (k_rows c))) (k_rows c)).
Proof. intros P V work c W. exact (serial_any work (k_rows c) W c (incl_refl (k_rows c))). Qed.
Print Assumptions C52_serial_repeats.
(** C52.  A distributed run writes one row per selected row, so the two agree exactly when the labels are distinct. *)
Theorem C52_agree : forall P V (work : Z -> P -> presult V) (post : list (Z * P)),
  consistent post -> labelled work ->
  forall (c : config P) (f : file V) (s : sys P V),
  incl (k_rows c) post -> left_behind work post f -> (1 <= k_batch c)%Z -> k_rows c <> [] -> reached work c f s -> s_pc s = PEnded ->
  exists t, s_table s = Some t /\ map fst t = k_rows c /\ (snd (serial work c Absent) = Ok t <-> NoDup (map fst (k_rows c))).
Proof. exact @agree_claim. Qed.
Print Assumptions C52_agree.
Example C52_ex :
  option_map (length (A := _)) (s_table (toy_end toy_twice Absent)) = Some 3 /\
  match snd (serial toy_work toy_twice Absent) with Ok t => length t = 5 | Err _ => False end /\
  s_pc (toy_end toy_twice Absent) = PEnded.
Proof. vm_compute. auto. Qed.

(** C55.  Every selected sample is in the checkpoint: nothing is sent but STOP, nothing is computed, and at the end the table is
    complete and each worker has had its STOP. *)
Theorem C55_nothing : forall P V (work : Z -> P -> presult V) (post : list (Z * P)),
  consistent post -> labelled work ->
  forall (c : config P) (f : file V) (s : sys P V),
  incl (k_rows c) post -> left_behind work post f -> (1 <= k_batch c)%Z -> k_rows c <> [] -> pending c f = [] -> reached work c f s ->
  s_computed s = [] /\ (forall m, In m (s_sent s) -> snd m = Stop) /\
  (s_pc s = PEnded -> s_table s = Some (full_table work (k_rows c)) /\ forall k, k < k_workers c -> to_worker k (s_sent s) = [Stop]).
Proof. intros P V work post H W c f s I L B. exact (nothing work post H W c I f L B s). Qed.
Print Assumptions C55_nothing.
(** C55.  An empty selection: the first step of the master raises KeyError, and then nobody can make a step although every
    worker is still waiting for a message. *)
Theorem C55_empty : forall P V (work : Z -> P -> presult V) (c : config P) (f : file V),
  readable f -> k_rows c = [] ->
  exists s, run work c (todo_of c f) [Master] (boot c f) = Some s /\ s_pc s = PRaised KeyError /\
    (forall x, act work c (todo_of c f) x s = None) /\ s_table s = None /\ s_workers s = map (fun _ => idle) (seq 0 (k_workers c)).
Proof. exact @empty_selection. Qed.
Print Assumptions C55_empty.
Example C55_ex :
  pending toy_part toy_file = [] /\ s_sent (toy_end toy_part toy_file) = [(0, Stop); (1, Stop); (2, Stop)] /\
  s_pc (toy_end toy_part toy_file) = PEnded /\
  let c := {| k_rows := []; k_save_every := Some 2%Z; k_batch := 1%Z; k_workers := 2 |} in
  s_pc (toy_end c toy_file) = PRaised KeyError.
Proof. vm_compute. auto. Qed.

(** C100.  A result of a selected sample that is in the checkpoint when a run starts is in it at every moment of every
    schedule, wherever a serial run is stopped, and when a serial run is complete. *)
Theorem C100_kept : forall P V (work : Z -> P -> presult V) (post : list (Z * P)),
  consistent post -> labelled work ->
  forall (c : config P) (f : file V), incl (k_rows c) post -> left_behind work post f ->
  forall r, In r (file_rows f) -> In (pr_index r) (map fst (k_rows c)) ->
  (forall s, (1 <= k_batch c)%Z -> reached work c f s -> In r (file_rows (s_file s))) /\
  (forall n, In r (file_rows (serial_crash work c f n))) /\ In r (file_rows (fst (serial work c f))).
Proof. exact @kept_claim. Qed.
Print Assumptions C100_kept.
(** C100.  A run that had something to compute, with checkpoints switched on, leaves a checkpoint with the results of the
    selected samples and nothing else. *)
Theorem C100_final : forall P V (work : Z -> P -> presult V) (post : list (Z * P)),
  consistent post -> labelled work ->
  forall (c : config P) (every : Z) (f : file V) (s : sys P V),
  incl (k_rows c) post -> left_behind work post f -> (1 <= k_batch c)%Z -> (1 <= every)%Z -> k_save_every c = Some every ->
  pending c f <> [] -> reached work c f s -> s_pc s = PEnded ->
  forall r, In r (file_rows (s_file s)) <-> exists i p, In (i, p) (k_rows c) /\ r = work i p.
Proof. exact @final_claim. Qed.
Print Assumptions C100_final.
Example C100_ex :
  file_rows toy_file = [toy_work 7 20; toy_work 9 40] /\ length (pending toy_config toy_file) = 3 /\ s_pc (toy_end toy_config toy_file) = PEnded /\
  file_rows (s_file (toy_end toy_config toy_file)) = map (fun x => toy_work (fst x) (snd x)) toy_post /\
  file_rows (serial_crash toy_work toy_config toy_file 2) = [toy_work 4 10; toy_work 7 20; toy_work 2 30; toy_work 9 40].
Proof. vm_compute. auto 10. Qed.
(** C100 for all results in the checkpoint is false: a run over another selection of the same posterior drops the results of
    the samples it does not select, so that they are computed again when they are selected the next time. *)
Theorem C100_other_selection_refuted : ~ forall P V (work : Z -> P -> presult V) (post : list (Z * P)),
  consistent post -> labelled work ->
  forall (c : config P) (f : file V) (s : sys P V),
  incl (k_rows c) post -> left_behind work post f -> (1 <= k_batch c)%Z -> reached work c f s ->
  forall r, In r (file_rows f) -> In r (file_rows (s_file s)).
Proof. exact other_lost. Qed.
Print Assumptions C100_other_selection_refuted.
Example C100_other_selection_ex :
  file_rows toy_file = [toy_work 7 20; toy_work 9 40] /\ s_pc (toy_end toy_other toy_file) = PEnded /\
  file_rows (s_file (toy_end toy_other toy_file)) = [toy_work 4 10] /\
  pending toy_part (s_file (toy_end toy_other toy_file)) = k_rows toy_part.
Proof. vm_compute. auto. Qed.
