(** C80-C82: generated waveforms, their quasi-circular counterparts, and the spins they accept. *)
From Coq Require Import Qabs Lia Lqa Qfield.
From Verif Require Import Base BaseLemmas UtilsModel UtilsSpec UtilsLemmas PeakLemmas DataModel MeasureModel HelperModel HelperSpec LoadModel LoadSpec LoadLemmas LoadKeys LoadWave.
Open Scope string_scope.
Open Scope nat_scope.

Lemma aligned_three c x y z : aligned c = Ok [x; y; z] -> exists x' y', c = [x'; y'; z] /\ (x == 0)%Q /\ (y == 0)%Q /\
  (Qabs x' + Qabs y' <= 1 # 100000)%Q.
Proof.
  unfold aligned. intros H. destruct (Qlt_bool (1 # 100000) (qsum (map Qabs (firstn 2 c)))) eqn:E; [discriminate|]. apply Qlt_bool_false in E. apply Ok_inj in H.
  assert (L : length c = 3).
  { assert (length (if Qeq_bool (qsum (map Qabs (firstn 2 c))) 0 then c else (map (fun _ => 0%Q) (firstn 2 c) ++ skipn 2 c)%list) = 3) by (now rewrite H).
    destruct (Qeq_bool _ 0); [assumption|]. rewrite app_length, map_length, <- app_length, firstn_skipn in H0. exact H0. }
  destruct c as [|a [|b [|c' [|]]]]; try discriminate L. cbn [firstn skipn map app qsum] in *. exists a, b.
  destruct (Qeq_bool (Qabs a + (Qabs b + 0)) 0) eqn:Z.
  - injection H as -> -> ->. apply Qeq_bool_iff in Z. pose proof (Qabs_nonneg x). pose proof (Qabs_nonneg y).
    assert (Qabs x == 0)%Q by lra. assert (Qabs y == 0)%Q by lra.
    assert (Q0 : forall w, (Qabs w == 0)%Q -> (w == 0)%Q).
    { intros w W. pose proof (Qle_Qabs w) as L1. pose proof (Qle_Qabs (- w)) as L2. rewrite Qabs_opp in L2. lra. }
    repeat split; try (now apply Q0). lra.
  - injection H as <- <- <-. repeat split; try reflexivity. lra.
Qed.
Lemma spin_checks_ok c1 c2 s1 s2 : spin_checks c1 c2 = Ok (s1, s2) ->
  exists x1 y1 z1 x2 y2 z2, c1 = [x1; y1; z1] /\ c2 = [x2; y2; z2] /\ snd s1 = z1 /\ snd s2 = z2 /\
   (fst (fst s1) == 0)%Q /\ (snd (fst s1) == 0)%Q /\ (fst (fst s2) == 0)%Q /\ (snd (fst s2) == 0)%Q /\
   (Qabs x1 + Qabs y1 <= 1 # 100000)%Q /\ (Qabs x2 + Qabs y2 <= 1 # 100000)%Q /\ (z1 * z1 <= 1)%Q /\ (z2 * z2 <= 1)%Q.
Proof.
  unfold spin_checks. intros H. apply bind_ok in H. destruct H as (a & A & H). apply bind_ok in H. destruct H as (b & B & H).
  destruct (Qlt_bool 1 (qdot a a)) eqn:N1; [discriminate|]. destruct (Qlt_bool 1 (qdot b b)) eqn:N2; [discriminate|]. apply Qlt_bool_false in N1, N2.
  destruct a as [|x1 [|y1 [|z1 [|]]]]; try discriminate H. destruct b as [|x2 [|y2 [|z2 [|]]]]; try discriminate H.
  apply Ok_inj in H. injection H as <- <-. apply aligned_three in A, B. destruct A as (x1' & y1' & -> & X1 & Y1 & L1), B as (x2' & y2' & -> & X2 & Y2 & L2).
  exists x1', y1', z1, x2', y2', z2. cbn [fst snd]. cbn [qdot] in N1, N2. repeat split; try assumption.
  - setoid_replace (z1 * z1)%Q with (x1 * x1 + (y1 * y1 + (z1 * z1 + 0)))%Q by (rewrite X1, Y1; ring). exact N1.
  - setoid_replace (z2 * z2)%Q with (x2 * x2 + (y2 * y2 + (z2 * z2 + 0)))%Q by (rewrite X2, Y2; ring). exact N2.
Qed.
Lemma nth_cscale k l i : nth_error (map (cscale k) l) i = option_map (cscale k) (nth_error l i).
Proof. apply nth_error_map. Qed.

Section LAL.
  Variable S : sources.
  Lemma reads_asked u kw k v : check_kwargs_and_set_defaults (Some u) (published "LAL") = Ok kw -> slookup kw k = Some v -> asked "LAL" u k v.
  Proof. intros C H. destruct (checked _ _ _ (published_nodup "LAL") C) as [_ L]. unfold asked. now rewrite <- L. Qed.

  Lemma lal_shape fuel u data : snd (load_waveform S fuel "LAL" u) = Ok data ->
    exists t d ph dt M D m dist, holds data "t" (DTime t) /\ holds data "hlm" (DModes d) /\ map fst d = [(2, 2)%Z] /\ fits t d /\
      asked "LAL" u "physicalUnits" ph /\ asked "LAL" u "deltaTOverM" (Some (ANum dt)) /\ asked "LAL" u "M" M /\ asked "LAL" u "D" D /\
      (if counts ph then M = Some (ANum m) /\ D = Some (ANum dist) else m = 10%Q /\ dist = 1%Q) /\
      let step := (if counts ph then dt * (m * so_mtsun S) else dt)%Q in
      uniform step t /\ ((0 < step)%Q -> merger_at_zero S t d).
  Proof.
    unfold load_waveform. cbn [String.eqb Ascii.eqb Bool.eqb lift snd]. intros H. apply lal_data in H. destruct H as (kw & t & d & O & T & DD). apply once_ok in O.
    destruct O as (C & r & R & W). apply with_args_ok in W. destruct W as (t0 & h & p & G & Ed & P & Et). apply generate_ok in G.
    destruct G as (s1 & s2 & m & dist & di & raw & SP & U & _ & RW & E0 & Eh).
    destruct R as (Ra & Rq & Rc1 & Rc2 & Re & Ro & Rd & (ph & Rp & On) & RM & RD & _).
    exists t, d, ph, (la_dt r), (option_map ANum (la_M r)), (option_map ANum (la_D r)), m, dist.
    assert (F0 : fits t0 d).
    { intros lm x I. rewrite Ed in I. destruct I as [I|[]]. injection I as <- <-. rewrite E0, ticks_length, map_length, Eh. destruct (la_ph r); [reflexivity|apply map_length]. }
    split; [exact T|]. split; [exact DD|]. split; [now rewrite Ed|]. split; [intros lm x I; rewrite Et, shift_length; now apply (F0 lm)|].
    split; [now apply (reads_asked u kw)|]. split; [now apply (reads_asked u kw)|]. split; [now apply (reads_asked u kw)|]. split; [now apply (reads_asked u kw)|].
    change on with counts in On. rewrite On. split; [unfold units_of in U; destruct (la_ph r); [destruct U as [-> ->]; split; reflexivity|exact U]|].
    cbv zeta. assert (UN : uniform (if la_ph r then la_dt r * (m * so_mtsun S) else la_dt r)%Q t0) by (rewrite E0; apply ticks_uniform).
    split; [rewrite Et; now apply shift_uniform|]. intros Z. rewrite Et. apply peak_of_shift; [exact P|exact F0|]. exact (uniform_increasing _ _ Z UN).
  Qed.
  (** the call of the library behind it *)
  Lemma lal_call fuel u data t d : snd (load_waveform S fuel "LAL" u) = Ok data -> holds data "t" (DTime t) -> holds data "hlm" (DModes d) -> sane S ->
    exists a q c1 c2 ecc om dt ph M D m dist c raw h z1 z2, asked "LAL" u "approximant" (Some (AStr a)) /\ asked "LAL" u "q" (Some (ANum q)) /\
      asked "LAL" u "chi1" (Some (AVec c1)) /\ asked "LAL" u "chi2" (Some (AVec c2)) /\ asked "LAL" u "ecc" (Some (ANum ecc)) /\
      asked "LAL" u "Momega0" (Some (ANum om)) /\ asked "LAL" u "deltaTOverM" (Some (ANum dt)) /\ asked "LAL" u "physicalUnits" ph /\ asked "LAL" u "M" M /\ asked "LAL" u "D" D /\
      (if counts ph then M = Some (ANum m) /\ D = Some (ANum dist) else m = 10%Q /\ dist = 1%Q) /\
      nth_error c1 2 = Some z1 /\ nth_error c2 2 = Some z2 /\ mode_of d (2, 2)%Z h /\ so_td S c = Ok raw /\
      (~ (1 + q == 0)%Q -> ~ (m == 0)%Q -> call_for S a q z1 z2 ecc om dt m dist c) /\
      rescaled (if counts ph then / so_ylm S else dist * 1000000 * so_pc S / (m * so_mtsun S * so_c S) / so_ylm S)%Q raw h.
  Proof.
    intros H Ht Hd (K1 & K2 & K3 & K4 & K5). unfold load_waveform in H. cbn [String.eqb Ascii.eqb Bool.eqb lift snd] in H. apply lal_data in H. destruct H as (kw & t' & d' & O & T & DD).
    unfold holds in *. rewrite Ht in T. rewrite Hd in DD. apply Some_inj in T, DD. injection T as <-. injection DD as <-. apply once_ok in O.
    destruct O as (C & r & R & W). apply with_args_ok in W. destruct W as (t0 & hh & p & G & Ed & P & Et). apply generate_ok in G.
    destruct G as (s1 & s2 & m & dist & di & raw & SP & U & ED & RW & E0 & Eh). apply spin_checks_ok in SP.
    destruct SP as (x1 & y1 & z1 & x2 & y2 & z2 & E1 & E2 & S1 & S2 & O1 & O2 & O3 & O4 & _).
    destruct R as (Ra & Rq & Rc1 & Rc2 & Re & Ro & Rd & (ph & Rp & On) & RM & RD & _).
    exists (la_a r), (la_q r), (la_c1 r), (la_c2 r), (la_e r), (la_om r), (la_dt r), ph, (option_map ANum (la_M r)), (option_map ANum (la_D r)), m, dist.
    eexists _, raw, (map (cscale (/ so_ylm S)%Q) hh), z1, z2.
    do 10 (split; [now apply (reads_asked u kw)|]). change on with counts in On. rewrite On.
    split; [unfold units_of in U; destruct (la_ph r); [destruct U as [-> ->]; split; reflexivity|exact U]|].
    split; [now rewrite E1|]. split; [now rewrite E2|]. split; [now rewrite Ed|]. split; [exact RW|]. split.
    - intros Q1 M0. assert (~ (m * so_mtsun S == 0)%Q) by (intros Z; apply Qmult_integral in Z; destruct Z; [contradiction|lra]).
      assert (PI : ~ (np_pi == 0)%Q) by (unfold np_pi; discriminate).
      unfold call_for. cbn [td_approximant td_m1 td_m2 td_spin1 td_spin2 td_ecc td_flow td_fref td_dt td_distance td_inclination td_phi td_nodes].
      repeat split; try assumption; try (field; assumption); try (unfold Qdiv; ring); try reflexivity.
      field. repeat split; try assumption. lra.
    - split; [rewrite Eh; destruct (la_ph r); rewrite ?map_length; reflexivity|].
      intros i a b A B. rewrite nth_cscale in B. rewrite Eh in B.
      destruct (la_ph r).
      + rewrite A in B. cbn in B. apply Some_inj in B. subst b. cbn. split; reflexivity.
      + rewrite nth_cscale, A in B. cbn in B. apply Some_inj in B. subst b. cbn [fst snd cscale].
        destruct (Qeq_dec m 0) as [M0|M0].
        * assert (Z : (/ (m * so_mtsun S) == 0)%Q) by (rewrite M0; setoid_replace (0 * so_mtsun S)%Q with 0%Q by ring; reflexivity).
          assert (Z' : (/ (m * so_mtsun S * so_c S) == 0)%Q) by (rewrite M0; setoid_replace (0 * so_mtsun S * so_c S)%Q with 0%Q by ring; reflexivity).
          unfold Qdiv. rewrite Z, Z', ED. split; ring.
        * assert (~ (so_mtsun S == 0)%Q) by lra. assert (~ (so_c S == 0)%Q) by lra. rewrite ED. split; field; auto.
  Qed.
End LAL.
