(** Vocabulary for the properties of the parallel post-processing run. *)
From Verif Require Import Base PostModel MpiModel.
Open Scope nat_scope.

Section Spec.
  Context {P V : Type} (work : Z -> P -> presult V).

  (** The same label has the same parameters everywhere: the labels of the posterior are distinct. *)
  Definition consistent (rows : list (Z * P)) : Prop := forall i p q, In (i, p) rows -> In (i, q) rows -> p = q.
  (** A result carries the label of its sample. *)
  Definition labelled : Prop := forall i p, pr_index (work i p) = i.
  (** The table of a run in which every selected sample is computed: one row per selected sample, in order. *)
  Definition full_table (rows : list (Z * P)) : list (row P V) := map (fun x => (x, Some (work (fst x) (snd x)))) rows.
  (** The results in a checkpoint file, and a file that holds nothing but right results of samples of the posterior. *)
  Definition file_rows (f : file V) : list (presult V) := match f with Rows l => l | _ => [] end.
  Definition right_result (post : list (Z * P)) (r : presult V) : Prop := exists p, In (pr_index r, p) post /\ r = work (pr_index r) p.
  Definition readable (f : file V) : Prop := f <> Corrupt.
  (** Every history of runs in one output directory, over samples of one posterior: distributed runs stopped at any
      moment of any schedule, serial runs stopped after any number of samples or complete, in any order, each with its own
      selection, batch size, number of workers and save interval. *)
  Inductive left_behind (post : list (Z * P)) : file V -> Prop :=
  | no_run : left_behind post Absent
  | distributed c f s : left_behind post f -> incl (k_rows c) post -> reached work c f s -> left_behind post (s_file s)
  | alone c f n : left_behind post f -> incl (k_rows c) post -> left_behind post (serial_crash work c f n)
  | alone_complete c f : left_behind post f -> incl (k_rows c) post -> left_behind post (fst (serial work c f)).

  (** The samples a run still has to compute: those selected whose label is not in the checkpoint. *)
  Definition pending (c : config P) (f : file V) : list (Z * P) :=
    filter (fun x => negb (existsb (Z.eqb (fst x)) (map pr_index (file_rows f)))) (k_rows c).
  (** The batches and the STOPs in a list of messages. *)
  Definition batch_of (m : nat * msg P) : list (Z * P) := match snd m with Batch l => l | Stop => [] end.
  Definition to_worker (k : nat) (l : list (nat * msg P)) : list (msg P) := map snd (filter (fun x => Nat.eqb (fst x) k) l).
  (** Nothing left to do: the master has ended and every worker has stopped with nothing in its channels. *)
  Definition all_done (s : sys P V) : Prop :=
    s_pc s = PEnded /\ Forall (fun w => w = {| w_in := []; w_state := Stopped; w_out := [] |}) (s_workers s).
  (** The results the master has received. *)
  Definition received (s : sys P V) : list (presult V) :=
    (somes (s_results s) ++ match s_pc s with PRecord _ l => map snd l | _ => [] end)%list.
End Spec.
