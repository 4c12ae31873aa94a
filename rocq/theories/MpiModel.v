(** Model of the parallel run of the post-processing command line tool: /repo/gw_eccentricity/postprocess/
    postprocess_cli.py 122-227 and 262-446.  Definitions only; logging and progress reports are left out. *)
From Verif Require Import Base PostModel.
Open Scope nat_scope.

(** l[k] = x *)
Fixpoint upd {A} (k : nat) (x : A) (l : list A) : list A :=
  match l, k with
  | [], _ => []
  | _ :: r, 0 => x :: r
  | a :: r, S k' => a :: upd k' x r
  end.
Fixpoint somes {A} (l : list (option A)) : list A :=
  match l with [] => [] | Some a :: r => a :: somes r | None :: r => somes r end.

Section Mpi.
  (** P: the parameters of a sample; [work i p] is run_postprocess (122-135) for the sample with label i and parameters p:
      postprocess_sample with exactly one reference input, which main's argument parser checks, never raises. *)
  Context {P V : Type} (work : Z -> P -> presult V).
  Notation presult := (presult V).

  (** checkpoint.parquet: absent; a table without the columns sample_index and status, such as the empty table; the table
      with the given rows; a file that cannot be read, left by a crash in the middle of writing. *)
  Inductive file := Absent | Unusable | Rows (l : list presult) | Corrupt.
  (** 178-182, load_checkpoint, with 293-304 of master: the rows, or none. *)
  Definition load_checkpoint (f : file) : res (option (list presult)) :=
    match f with Absent => Ok None | Unusable => Ok None | Rows l => Ok (Some l) | Corrupt => Err GenericException end.
  (** 185-190, save_checkpoint: the file written for the results so far.  A table without rows has no columns. *)
  Definition save_checkpoint (results : list (option presult)) : file :=
    match somes results with [] => Unusable | l => Rows l end.

  (** A row of the final table: label, parameters and the result, if there is one. *)
  Definition row := (Z * P * option presult)%type.
  (** 193-227, save_final: the selected rows merged (how="left") with the results on sample_index.  Without any result
      results_df has no columns and results_df["sample_index"] raises KeyError.  (Parameter columns named like result
      columns are not modelled; the output format is one of the three supported ones.) *)
  Definition merge_row (valid : list presult) (x : Z * P) : list row :=
    match filter (fun r => Z.eqb (pr_index r) (fst x)) valid with
    | [] => [(x, None)]
    | l => map (fun r => (x, Some r)) l
    end.
  Definition save_final (rows : list (Z * P)) (results : list (option presult)) : res (list row) :=
    match somes results with
    | [] => Err KeyError
    | valid => Ok (flat_map (merge_row valid) rows)
    end.

  (** What stays fixed during a run: the selected rows (306-313), save_every, batch_size and the number of workers,
      which is size - 1. *)
  Record config := { k_rows : list (Z * P); k_save_every : option Z; k_batch : Z; k_workers : nat }.

  (** 315-321, processed_indices, and 323-326, to_process. *)
  Definition processed (ck : option (list presult)) : list Z :=
    match ck with None => [] | Some l => map pr_index l end.
  Definition to_process (rows : list (Z * P)) (ck : option (list presult)) : list (nat * Z * P) :=
    filter (fun x => negb (existsb (Z.eqb (snd (fst x))) (processed ck)))
           (map (fun x => (fst x, fst (snd x), snd (snd x))) (combine (seq 0 (length rows)) rows)).
  (** 332-335, sample_index_to_pos: for a label that occurs more than once the last position stays. *)
  Fixpoint pos_from (i : Z) (k : nat) (rows : list (Z * P)) : option nat :=
    match rows with
    | [] => None
    | x :: r => match pos_from i (S k) r with
                | Some j => Some j
                | None => if Z.eqb (fst x) i then Some k else None
                end
    end.
  Definition pos_of (rows : list (Z * P)) (i : Z) : option nat := pos_from i 0 rows.
  (** 330 and 337-350: the initial results. *)
  Fixpoint replay (rows : list (Z * P)) (ck : list presult) (results : list (option presult)) : list (option presult) :=
    match ck with
    | [] => results
    | r :: l => replay rows l match pos_of rows (pr_index r) with Some k => upd k (Some r) results | None => results end
    end.
  Definition initial_results (rows : list (Z * P)) (ck : option (list presult)) : list (option presult) :=
    replay rows match ck with None => [] | Some l => l end (map (fun _ => None) rows).

  (** 378-383 and 415-421: one more result is in [results]; the checkpoint is written when enough have come in.
      An interval of None or 0 switches checkpoints off. *)
  Definition enabled (every : option Z) : bool := match every with None => false | Some k => negb (Z.eqb k 0) end.
  Definition interval (every : option Z) : Z := match every with None => 0%Z | Some k => k end.
  Definition after_result (c : config) (results : list (option presult)) (since : Z) (f : file) : Z * file :=
    let since := (since + 1)%Z in
    if enabled (k_save_every c) && (interval (k_save_every c) <=? since)%Z then (0%Z, save_checkpoint results) else (since, f).
  (** 385-386 and 433-434: the last checkpoint. *)
  Definition last_checkpoint (c : config) (results : list (option presult)) (since : Z) (f : file) : file :=
    if enabled (k_save_every c) && (0 <? since)%Z then save_checkpoint results else f.

  (** *** The serial run, 373-389. *)
  Record serial_state := { e_results : list (option presult); e_since : Z; e_file : file }.
  Fixpoint serial_loop (c : config) (l : list (nat * Z * P)) (s : serial_state) : serial_state :=
    match l with
    | [] => s
    | (k, i, p) :: r =>
        let results := upd k (Some (work i p)) (e_results s) in
        let x := after_result c results (e_since s) (e_file s) in
        serial_loop c r {| e_results := results; e_since := fst x; e_file := snd x |}
    end.
  Definition serial_start (c : config) (ck : option (list presult)) (f : file) : serial_state :=
    {| e_results := initial_results (k_rows c) ck; e_since := 0; e_file := f |}.
  (** 262-389 with size = 1: the checkpoint left behind and the final table. *)
  Definition serial (c : config) (f : file) : file * res (list row) :=
    match load_checkpoint f with
    | Err e => (f, Err e)
    | Ok ck =>
        let l := to_process (k_rows c) ck in
        let s := serial_loop c l (serial_start c ck f) in
        let f' := match l with [] => f | _ => last_checkpoint c (e_results s) (e_since s) (e_file s) end in
        (f', save_final (k_rows c) (e_results s))
    end.
  (** The file on disk when the serial run stops after n samples. *)
  Definition serial_crash (c : config) (f : file) (n : nat) : file :=
    match load_checkpoint f with
    | Err _ => f
    | Ok ck => e_file (serial_loop c (firstn n (to_process (k_rows c) ck)) (serial_start c ck f))
    end.

  (** *** The distributed run. *)

  (** Messages to a worker: (batch_indices, batch_params), here as pairs, or STOP. *)
  Inductive msg := Batch (l : list (Z * P)) | Stop.
  (** A reply: sample_indices and results; the rank of the worker is known from the channel. *)
  Definition reply := (list Z * list presult)%type.
  (** A worker with its channels, first message first.  Sending does not block. *)
  Inductive wstate := Waiting | Busy (l : list (Z * P)) | Stopped.
  Record worker := { w_in : list msg; w_state : wstate; w_out : list reply }.

  (** Where the master is.  Worker k has rank k + 1. *)
  Inductive pc :=
  | PSave                                    (* 358-360: nothing to process, about to write the final table *)
  | PStop (k : nat)                          (* 362-365: about to send STOP to worker k *)
  | PPrime (k : nat)                         (* 396-404: about to prime worker k *)
  | PLoop                                    (* 407: at the head of the loop *)
  | PRecord (k : nat) (l : list (Z * presult)) (* 412-421: results of worker k still to be recorded; then 424-431 *)
  | PFinal                                   (* 436 *)
  | PEnded
  | PRaised (e : exn).

  Record sys := {
    s_pc : pc; s_next : Z;                   (* next_batch_idx *)
    s_results : list (option presult); s_since : Z; s_completed : nat;
    s_file : file; s_table : option (list row);  (* the files written *)
    s_workers : list worker;
    s_sent : list (nat * msg);               (* history: every message sent by the master, in order *)
    s_computed : list (Z * P)                (* history: every sample a worker has computed, in order *)
  }.
  Definition set_pc x s := {| s_pc := x; s_next := s_next s; s_results := s_results s; s_since := s_since s;
    s_completed := s_completed s; s_file := s_file s; s_table := s_table s; s_workers := s_workers s; s_sent := s_sent s;
    s_computed := s_computed s |}.
  Definition set_next x s := {| s_pc := s_pc s; s_next := x; s_results := s_results s; s_since := s_since s;
    s_completed := s_completed s; s_file := s_file s; s_table := s_table s; s_workers := s_workers s; s_sent := s_sent s;
    s_computed := s_computed s |}.
  Definition set_worker k x s := {| s_pc := s_pc s; s_next := s_next s; s_results := s_results s; s_since := s_since s;
    s_completed := s_completed s; s_file := s_file s; s_table := s_table s; s_workers := upd k x (s_workers s);
    s_sent := s_sent s; s_computed := s_computed s |}.

  Section Run.
    Context (c : config) (todo : list (nat * Z * P)).

    (** comm.send(m, dest=k+1) *)
    Definition send (k : nat) (m : msg) (s : sys) : sys :=
      match nth_error (s_workers s) k with
      | Some w =>
          {| s_pc := s_pc s; s_next := s_next s; s_results := s_results s; s_since := s_since s;
             s_completed := s_completed s; s_file := s_file s; s_table := s_table s;
             s_workers := upd k {| w_in := w_in w ++ [m]; w_state := w_state w; w_out := w_out w |} (s_workers s);
             s_sent := s_sent s ++ [(k, m)]; s_computed := s_computed s |}
      | None => s
      end.
    (** 151-160, extract_batch_data, and 397-404, 424-431: the next batch or STOP. *)
    Definition extract (l : list (nat * Z * P)) : list (Z * P) := map (fun x => (snd (fst x), snd x)) l.
    Definition dispatch (k : nat) (s : sys) : sys :=
      let n := Z.of_nat (length todo) in
      if (s_next s <? n)%Z then
        let e := Z.min (s_next s + k_batch c) n in
        set_next e (send k (Batch (extract (zslice todo (s_next s) e))) s)
      else send k Stop s.
    (** 412-421: one pass of the inner loop. *)
    Definition record_one (k : nat) (i : Z) (r : presult) (rest : list (Z * presult)) (s : sys) : sys :=
      match pos_of (k_rows c) i with
      | None => set_pc (PRaised KeyError) s
      | Some j =>
          let results := upd j (Some r) (s_results s) in
          let x := after_result c results (s_since s) (s_file s) in
          {| s_pc := PRecord k rest; s_next := s_next s; s_results := results; s_since := fst x;
             s_completed := S (s_completed s); s_file := snd x; s_table := s_table s; s_workers := s_workers s;
             s_sent := s_sent s; s_computed := s_computed s |}
      end.
    Definition finish (next : pc) (s : sys) : sys :=
      match save_final (k_rows c) (s_results s) with
      | Ok t => {| s_pc := next; s_next := s_next s; s_results := s_results s; s_since := s_since s;
                   s_completed := s_completed s; s_file := s_file s; s_table := Some t; s_workers := s_workers s;
                   s_sent := s_sent s; s_computed := s_computed s |}
      | Err e => set_pc (PRaised e) s
      end.
    (** A step of the master other than receiving. *)
    Definition master_step (s : sys) : option sys :=
      match s_pc s with
      | PSave => Some (finish (PStop 0) s)
      | PStop k => Some (if k <? k_workers c then set_pc (PStop (S k)) (send k Stop s) else set_pc PEnded s)
      | PPrime k => Some (if k <? k_workers c then set_pc (PPrime (S k)) (dispatch k s) else set_pc PLoop s)
      | PLoop => if s_completed s <? length todo then None
                 else Some {| s_pc := PFinal; s_next := s_next s; s_results := s_results s; s_since := s_since s;
                              s_completed := s_completed s;
                              s_file := last_checkpoint c (s_results s) (s_since s) (s_file s);
                              s_table := s_table s; s_workers := s_workers s; s_sent := s_sent s;
                              s_computed := s_computed s |}
      | PRecord k [] => Some (set_pc PLoop (dispatch k s))
      | PRecord k ((i, r) :: rest) => Some (record_one k i r rest s)
      | PFinal => Some (finish PEnded s)
      | PEnded | PRaised _ => None
      end.
    (** 407-409: comm.recv(source=ANY_SOURCE) takes the oldest message of some worker. *)
    Definition receive (k : nat) (s : sys) : option sys :=
      match s_pc s, nth_error (s_workers s) k with
      | PLoop, Some w =>
          match w_out w with
          | [] => None
          | m :: r =>
              if s_completed s <? length todo
              then Some (set_pc (PRecord k (combine (fst m) (snd m)))
                                (set_worker k {| w_in := w_in w; w_state := w_state w; w_out := r |} s))
              else None
          end
      | _, _ => None
      end.
    (** 439-446, worker, and 138-148, run_postprocess_batch. *)
    Definition worker_step (k : nat) (s : sys) : option sys :=
      match nth_error (s_workers s) k with
      | None => None
      | Some w =>
          match w_state w, w_in w with
          | Waiting, Stop :: r => Some (set_worker k {| w_in := r; w_state := Stopped; w_out := w_out w |} s)
          | Waiting, Batch l :: r => Some (set_worker k {| w_in := r; w_state := Busy l; w_out := w_out w |} s)
          | Busy l, _ =>
              Some {| s_pc := s_pc s; s_next := s_next s; s_results := s_results s; s_since := s_since s;
                      s_completed := s_completed s; s_file := s_file s; s_table := s_table s;
                      s_workers := upd k {| w_in := w_in w; w_state := Waiting;
                                            w_out := w_out w ++ [(map fst l, map (fun x => work (fst x) (snd x)) l)] |} (s_workers s);
                      s_sent := s_sent s; s_computed := s_computed s ++ l |}
          | _, _ => None
          end
      end.

    (** A schedule says who moves next: the master, the master receiving from worker k, or worker k. *)
    Inductive choice := Master | Receive (k : nat) | Worker (k : nat).
    Definition act (x : choice) (s : sys) : option sys :=
      match x with Master => master_step s | Receive k => receive k s | Worker k => worker_step k s end.
    Fixpoint run (l : list choice) (s : sys) : option sys :=
      match l with
      | [] => Some s
      | x :: r => match act x s with Some s' => run r s' | None => None end
      end.
  End Run.

  (** 262-395: the state when the checkpoint has been read. *)
  Definition idle : worker := {| w_in := []; w_state := Waiting; w_out := [] |}.
  Definition boot (c : config) (f : file) : sys :=
    let blank p results := {| s_pc := p; s_next := 0; s_results := results; s_since := 0; s_completed := 0; s_file := f;
                              s_table := None; s_workers := map (fun _ => idle) (seq 0 (k_workers c)); s_sent := [];
                              s_computed := [] |} in
    match load_checkpoint f with
    | Err e => blank (PRaised e) []
    | Ok ck => blank match to_process (k_rows c) ck with [] => PSave | _ => PPrime 0 end (initial_results (k_rows c) ck)
    end.
  Definition todo_of (c : config) (f : file) : list (nat * Z * P) :=
    match load_checkpoint f with Err _ => [] | Ok ck => to_process (k_rows c) ck end.
  (** s is reached by some schedule from the start of a run with the checkpoint file f. *)
  Definition reached (c : config) (f : file) (s : sys) : Prop := exists l, run c (todo_of c f) l (boot c f) = Some s.
End Mpi.
Arguments file : clear implicits.
Arguments sys : clear implicits.
Arguments config : clear implicits.
Arguments row : clear implicits.
Arguments msg : clear implicits.
Arguments worker : clear implicits.
