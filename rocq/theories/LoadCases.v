(** More cases for the examples of loading. *)
From Coq Require Import Qabs.
From Verif Require Import Base BaseLemmas UtilsModel UtilsLemmas MeasureModel DataModel HelperModel LoadModel LoadSpec LoadLemmas LoadKeys LoadToy LoadRuns DownloadModel DownloadSpec.
Open Scope string_scope.
Open Scope nat_scope.

(** what a call gives *)
Definition the_times (u : lkwargs) : list Q := match snd (load_waveform toy 0 "LAL" u) with Ok d => match slookup d "t" with Some (DTime t) => t | _ => [] end | _ => [] end.
Definition the_modes (u : lkwargs) : modes := match snd (load_waveform toy 0 "LAL" u) with Ok d => match slookup d "hlm" with Some (DModes m) => m | _ => [] end | _ => [] end.
Definition well (u : lkwargs) : bool :=
  match snd (load_waveform toy 0 "LAL" u) with Ok d => match slookup d "t", slookup d "hlm" with Some (DTime _), Some (DModes _) => true | _, _ => false end | _ => false end.
Lemma well_generates u : well u = true -> generates toy u (the_times u) (the_modes u).
Proof.
  unfold well, the_times, the_modes, generates. destruct (snd (load_waveform toy 0 "LAL" u)) as [d|] eqn:E; [|intros X; discriminate X].
  destruct (slookup d "t") as [[t|?|?|?]|] eqn:T; intros X; try discriminate X. destruct (slookup d "hlm") as [[?|m|?|?]|] eqn:H; try discriminate X. exists 0, d. auto.
Qed.
Definition first_time (u : lkwargs) : Q := hd 0%Q (the_times u).
Definition first_is (u : lkwargs) (x : Q) : bool := match the_times u with y :: _ => Qeq_bool y x | [] => false end.
Lemma first_starts u x : first_is u x = true -> starts (the_times u) (first_time u) /\ (first_time u == x)%Q.
Proof. unfold first_is, first_time, starts. destruct (the_times u); intros X; [discriminate X|]. apply Qeq_bool_iff in X. split; [reflexivity|exact X]. Qed.

(** the second of the tries for the circular waveform starts early enough *)
Definition circ_off : lkwargs := sset circ_kw "include_zero_ecc" (Some (ABool false)).
Definition circ_try (n : nat) : lkwargs := circular circ_kw (zero_for "X") (tries (9 # 10) (65 # 100) n).
Lemma circ_off_ok : well circ_off && first_is circ_off (-17)%Q = true.
Proof. vm_cast_no_check (eq_refl true). Qed.
Lemma circ_0_ok : well (circ_try 0) && first_is (circ_try 0) (-12)%Q = true.
Proof. vm_cast_no_check (eq_refl true). Qed.
Lemma circ_1_ok : well (circ_try 1) && first_is (circ_try 1) (-37)%Q = true.
Proof. vm_cast_no_check (eq_refl true). Qed.
Lemma circ_case : exists t d t0 tz dz, generates toy circ_off t d /\ starts t t0 /\
  (forall m, m < 1 -> exists tm dm, generates toy (circ_try m) tm dm /\ later tm t0) /\ generates toy (circ_try 1) tz dz /\ no_later tz t0.
Proof.
  pose proof circ_off_ok as A. pose proof circ_0_ok as B. pose proof circ_1_ok as C. apply andb_true_iff in A, B, C. destruct A as [A1 A2], B as [B1 B2], C as [C1 C2].
  apply first_starts in A2, B2, C2. destruct A2 as [A2 A3], B2 as [B2 B3], C2 as [C2 C3].
  exists (the_times circ_off), (the_modes circ_off), (first_time circ_off), (the_times (circ_try 1)), (the_modes (circ_try 1)).
  split; [exact (well_generates _ A1)|]. split; [exact A2|]. split.
  - intros m L. destruct m; [|lia]. exists (the_times (circ_try 0)), (the_modes (circ_try 0)). split; [exact (well_generates _ B1)|]. exists (first_time (circ_try 0)). split; [exact B2|]. rewrite A3, B3. reflexivity.
  - split; [exact (well_generates _ C1)|]. exists (first_time (circ_try 1)). split; [exact C2|]. rewrite A3, C3. discriminate.
Qed.

(** the files of the example download, as a loader of that disk sees them *)
Lemma exists_present k p : path_exists k p = true <-> present k p.
Proof.
  unfold path_exists, present. destruct (content k p) as [c|]; [split; [intros _; left; discriminate|reflexivity]|]. rewrite existsb_exists. split.
  - intros (x & I & E). apply String.eqb_eq in E. subst. right. exact I.
  - intros [X|X]; [congruence|]. exists p. split; [exact X|apply String.eqb_refl].
Qed.
Lemma toy_reads : exists evs, download_sxs_waveform toy_server "SXS:BBH:0001" 3 "data" 2 "v3.0.0" toy_disk = (evs, Ok toy_dir) /\
  reads (disk_sources (after toy_disk evs)) (after toy_disk evs) toy_dir 2 /\ asked "SXSCatalog" (sxs_kw toy_dir []) "extrap_order" (Some (ANum (inject_Z 2))).
Proof.
  eexists. split; [vm_compute; reflexivity|]. split; [|reflexivity]. split; [|split; [|split; [|split]]]; exact (exists_present _ _).
Qed.
