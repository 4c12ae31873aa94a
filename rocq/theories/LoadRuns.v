(** The examples of loading: what the calls of LoadToy give. *)
From Coq Require Import Qabs.
From Verif Require Import Base BaseLemmas UtilsModel UtilsLemmas MeasureModel DataModel HelperModel LoadModel LoadSpec LoadLemmas LoadKeys LoadZero LoadClaims LoadOther DownloadModel DownloadSpec DownloadLemmas LoadToy.
Open Scope string_scope.
Open Scope nat_scope.

Definition passes (r : res data_dict) (p : data_dict -> bool) : bool := match r with Ok d => p d | Err _ => false end.
Lemma passed r p : passes r p = true -> exists d, r = Ok d /\ p d = true.
Proof. destruct r as [d|]; [eauto|discriminate]. Qed.
Fixpoint same (a b : list Q) : bool :=
  match a, b with [], [] => true | x :: a, y :: b => Qeq_bool x y && same a b | _, _ => false end.
Definition at_times (k : string) (l : list Q) (d : data_dict) : bool := match slookup d k with Some (DTime t) => same t l | _ => false end.
(** the entry k holds the times l, up to the way a rational is written *)
Definition times (d : data_dict) (k : string) (l : list Q) : Prop := exists t, holds d k (DTime t) /\ Forall2 Qeq t l.
Lemma same_ok : forall a b, same a b = true -> Forall2 Qeq a b.
Proof.
  induction a as [|x a IH]; intros [|y b] H; try discriminate; constructor; cbn in H; apply andb_true_iff in H; destruct H as [H1 H2]; [now apply Qeq_bool_iff|auto].
Qed.
Lemma at_times_ok k l d : at_times k l d = true -> times d k l.
Proof. unfold at_times. destruct (slookup d k) as [[]|] eqn:E; try discriminate. intros H. eexists. split; [exact E|now apply same_ok]. Qed.
Ltac run := apply passed; vm_cast_no_check (eq_refl true).

Definition loads (fuel : nat) (o : string) (u : lkwargs) (d : data_dict) : Prop := snd (load_waveform toy fuel o u) = Ok d.
Lemma run_lal : exists d, loads 5 "LAL" lal_kw d /\ times d "t" (grid_of (-17) 1 20).
Proof.
  assert (H : exists d, loads 5 "LAL" lal_kw d /\ at_times "t" (grid_of (-17) 1 20) d = true) by run.
  destruct H as (d & H & T). exists d. split; [exact H|now apply at_times_ok].
Qed.
Lemma run_si : exists d, loads 5 "LAL" si_kw d /\ times d "t" (grid_of (-340) 20 20).
Proof.
  assert (H : exists d, loads 5 "LAL" si_kw d /\ at_times "t" (grid_of (-340) 20 20) d = true) by run.
  destruct H as (d & H & T). exists d. split; [exact H|now apply at_times_ok].
Qed.
Lemma run_two o u l k : (exists d, loads 5 o u d /\ at_times "t" l d && at_times "t_zeroecc" k d = true) -> exists d, loads 5 o u d /\ times d "t" l /\ times d "t_zeroecc" k.
Proof. intros (d & H & T). apply andb_true_iff in T. exists d. split; [exact H|]. split; apply at_times_ok; tauto. Qed.
Lemma run_circ : exists d, loads 5 "LAL" circ_kw d /\ times d "t" (grid_of (-17) 1 20) /\ times d "t_zeroecc" (grid_of (-37) 1 40).
Proof. apply run_two. run. Qed.
Definition sxs_all : lkwargs := sxs_kw "a" [("include_zero_ecc", yes); ("include_params_dict", yes)].
Lemma run_sxs : exists d, loads 5 "SXSCatalog" sxs_all d /\ times d "t" (grid_of (-12) 1 15) /\ times d "t_zeroecc" (grid_of (-13) (1 # 10) 133).
Proof. apply run_two. run. Qed.
Definition sxs_near : lkwargs := sxs_kw "a" [("include_zero_ecc", yes); ("zero_ecc_approximant", Some (AStr "Near"))].
Lemma run_near : exists d, loads 5 "SXSCatalog" sxs_near d /\ times d "t" (grid_of (-12) 1 15) /\ times d "t_zeroecc" (grid_of (-1 # 2) (1 # 10) 8).
Proof. apply run_two. run. Qed.
Definition hack_long : lkwargs := nr_kw [("include_zero_ecc", yes); ("include_params_dict", yes); ("zero_ecc_approximant", Some (AStr "Longer"))].
Lemma warned_run (r : lg data_dict) w : passes (snd r) (fun _ => existsb (String.eqb w) (fst r)) = true -> exists d, snd r = Ok d /\ In w (fst r).
Proof. intros H. apply passed in H. destruct H as (d & H & I). exists d. split; [exact H|]. apply existsb_exists in I. destruct I as (x & X & E). apply String.eqb_eq in E. now subst x. Qed.
Lemma run_long : exists d, loads 5 "LVCNR_hack" hack_long d /\ In "zeroecc waveform is too long" (fst (load_waveform toy 5 "LVCNR_hack" hack_long)).
Proof. apply (warned_run (load_waveform toy 5 "LVCNR_hack" hack_long)). vm_cast_no_check (eq_refl true). Qed.
Definition sxs_two : lkwargs := sxs_kw "a" [("mode_array", Some (AModes [(2, 1)%Z; (2, 2)%Z])); ("num_orbits_to_remove_as_junk", Some (ANum 1))].
Lemma run_two_modes : exists d, loads 5 "SXSCatalog" sxs_two d /\ times d "t" (grid_of (-24) 1 27).
Proof.
  assert (H : exists d, loads 5 "SXSCatalog" sxs_two d /\ at_times "t" (grid_of (-24) 1 27) d = true) by run.
  destruct H as (d & H & T). exists d. split; [exact H|now apply at_times_ok].
Qed.
Definition sxs_low : lkwargs := sxs_kw "d" [("include_params_dict", yes)].
Lemma run_low : exists d, loads 5 "SXSCatalog" sxs_low d.
Proof. assert (H : exists d, loads 5 "SXSCatalog" sxs_low d /\ true = true) by run. destruct H as (d & H & _). eauto. Qed.
Definition old_all : lkwargs := sxs_kw "b" [("include_params_dict", yes)].
Lemma run_old : exists d, loads 5 "SXSCatalog_old" old_all d /\ times d "t" (grid_of (-12) 1 15).
Proof.
  assert (H : exists d, loads 5 "SXSCatalog_old" old_all d /\ at_times "t" (grid_of (-12) 1 15) d = true) by run.
  destruct H as (d & H & T). exists d. split; [exact H|now apply at_times_ok].
Qed.
Lemma run_lvcnr : exists d, loads 5 "LVCNR" (nr_kw []) d /\ times d "t" (grid_of (-12) 1 16).
Proof.
  assert (H : exists d, loads 5 "LVCNR" (nr_kw []) d /\ at_times "t" (grid_of (-12) 1 16) d = true) by run.
  destruct H as (d & H & T). exists d. split; [exact H|now apply at_times_ok].
Qed.
Lemma run_hack : exists d, loads 5 "LVCNR_hack" (nr_kw []) d /\ times d "t" (grid_of 25 1 15).
Proof.
  assert (H : exists d, loads 5 "LVCNR_hack" (nr_kw []) d /\ at_times "t" (grid_of 25 1 15) d = true) by run.
  destruct H as (d & H & T). exists d. split; [exact H|now apply at_times_ok].
Qed.
Definition eob_all : lkwargs := eob_kw [("include_zero_ecc", yes); ("filepath_zero_ecc", Some (AStr "z"))].
Lemma run_eob : exists d, loads 5 "EOB" eob_all d /\ times d "t" (grid_of (-7) 1 10) /\ times d "t_zeroecc" (grid_of (-7) 1 10).
Proof. apply run_two. run. Qed.
Definition emri_all : lkwargs := emri_kw [("include_zero_ecc", yes); ("start_time", Some (ANum (-52 # 10))); ("end_time", Some (ANum 1)); ("include_geodesic_ecc", yes)].
Lemma run_emri : exists d, loads 5 "EMRI" emri_all d /\ times d "t" (grid_of (-5) 1 6) /\ times d "t_zeroecc" (grid_of (-7) 1 9).
Proof. apply run_two. run. Qed.
Definition emri_step : lkwargs := emri_kw [("deltaT", Some (ANum 2)); ("include_geodesic_ecc", yes)].
Lemma run_emri_step : exists d, loads 5 "EMRI" emri_step d /\ times d "t" (grid_of (-7) 2 4).
Proof.
  assert (H : exists d, loads 5 "EMRI" emri_step d /\ at_times "t" (grid_of (-7) 2 4) d = true) by run.
  destruct H as (d & H & T). exists d. split; [exact H|now apply at_times_ok].
Qed.

(** ** Statements that the code does not meet *)
Lemma times_in d k l t x : times d k l -> holds d k (DTime t) -> In x l -> exists y, In y t /\ (y == x)%Q.
Proof.
  intros (t' & H & F) H' I. unfold holds in *. rewrite H in H'. injection H' as ->. clear H. induction F as [|a b t l E F IH]; [destruct I|].
  destruct I as [->|I]; [exists a; split; [now left|exact E]|]. destruct (IH I) as (y & Y & Q). exists y. split; [now right|exact Q].
Qed.
(** the quasi-circular data of a numerical waveform can start later than the numerical data (C83) *)
Lemma near_later : exists S fuel o u data t t0 tz, In o numerical /\ snd (load_waveform S fuel o u) = Ok data /\ wanted o u "include_zero_ecc" /\
  holds data "t" (DTime t) /\ starts t t0 /\ holds data "t_zeroecc" (DTime tz) /\ later tz t0.
Proof.
  destruct run_near as (d & R & (t & T & FT) & (tz & Z & FZ)).
  assert (G : grid_of (-12) 1 15 = (-12)%Q :: grid_of (-11) 1 14) by (vm_compute; reflexivity). assert (G' : grid_of (-1 # 2) (1 # 10) 8 = (-1 # 2)%Q :: grid_of (-4 # 10) (1 # 10) 7) by (vm_compute; reflexivity).
  rewrite G in FT. rewrite G' in FZ. inversion FT as [|a b t' l E F]; subst. inversion FZ as [|a' b' tz' l' E' F']; subst.
  exists toy, 5, "SXSCatalog", sxs_near, d, (a :: t'), a, (a' :: tz'). split; [left; reflexivity|]. split; [exact R|]. split; [exists yes; split; reflexivity|].
  split; [exact T|]. split; [reflexivity|]. split; [exact Z|]. exists a'. split; [reflexivity|]. rewrite E, E'. reflexivity.
Qed.
(** the merger of LVCNR_hack data is not moved to t = 0 (C86) *)
Lemma hack_merger : exists S fuel u data dt t d, snd (load_waveform S fuel "LVCNR_hack" u) = Ok data /\ asked "LVCNR_hack" u "deltaTOverM" (Some (ANum dt)) /\ (0 < dt)%Q /\
  holds data "t" (DTime t) /\ holds data "hlm" (DModes d) /\ ~ merger_at_zero S t d.
Proof.
  assert (H : exists data, loads 5 "LVCNR_hack" (nr_kw []) data /\
    match slookup data "t", slookup data "hlm" with Some (DTime t), Some (DModes d) => match peak_time toy t d with Ok p => negb (Qeq_bool p 0) | _ => false end | _, _ => false end = true) by run.
  destruct H as (data & R & P). destruct (slookup data "t") as [[t|?|?|?]|] eqn:T; try discriminate P. destruct (slookup data "hlm") as [[?|d|?|?]|] eqn:D; try discriminate P.
  exists toy, 5, (nr_kw []), data, 1%Q, t, d. split; [exact R|]. split; [reflexivity|]. split; [reflexivity|]. split; [exact T|]. split; [exact D|].
  intros (p & PK & Z). rewrite PK in P. apply negb_true_iff in P. apply Qeq_bool_neq in P. contradiction.
Qed.
(** without end_time the EMRI data goes beyond the maximum of the amplitude (C87) *)
Lemma emri_beyond : exists S fuel u data t x, snd (load_waveform S fuel "EMRI" u) = Ok data /\ asked "EMRI" u "end_time" None /\ holds data "t" (DTime t) /\ In x t /\ (0 < x)%Q.
Proof.
  assert (H : exists d, loads 5 "EMRI" (emri_kw []) d /\ at_times "t" (grid_of (-7) 1 9) d = true) by run.
  destruct H as (d & H & T). apply at_times_ok in T. pose proof T as (t & HT & _). destruct (times_in _ _ _ _ 1%Q T HT) as (x & X & E); [vm_compute; tauto|].
  exists toy, 5, (emri_kw []), d, t, x. split; [exact H|]. split; [vm_compute; reflexivity|]. split; [exact HT|]. split; [exact X|]. rewrite E. reflexivity.
Qed.
