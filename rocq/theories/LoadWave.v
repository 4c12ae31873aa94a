(** C80: what a generated waveform is. *)
From Coq Require Import Qabs Lia Lqa Qfield.
From Verif Require Import Base BaseLemmas UtilsModel UtilsSpec UtilsLemmas PeakLemmas DataModel MeasureModel HelperModel HelperSpec LoadModel LoadSpec LoadLemmas LoadKeys.
Open Scope string_scope.
Open Scope nat_scope.

(** ** grids *)
Definition ticks (step : Q) (n : nat) : list Q := map (fun i => step * inject_Z (Z.of_nat i))%Q (seq 0 n).
Lemma nth_seq n i a : nth_error (seq 0 n) i = Some a -> a = i /\ i < n.
Proof.
  intros H. assert (L : i < n) by (rewrite <- (seq_length n 0); apply nth_error_Some; congruence).
  split; [|exact L]. apply (nth_error_nth _ _ 0) in H. rewrite seq_nth in H by exact L. lia.
Qed.
Lemma inject_S i : (inject_Z (Z.of_nat (S i)) == inject_Z (Z.of_nat i) + 1)%Q.
Proof. rewrite Nat2Z.inj_succ, <- Z.add_1_r, inject_Z_plus. reflexivity. Qed.
Lemma ticks_uniform step n : uniform step (ticks step n).
Proof.
  intros i a b A B. unfold ticks in *. rewrite nth_error_map in A, B.
  destruct (nth_error (seq 0 n) i) as [x|] eqn:X; [|discriminate]. destruct (nth_error (seq 0 n) (S i)) as [y|] eqn:Y; [|discriminate].
  apply nth_seq in X, Y. destruct X as [-> _], Y as [-> _]. apply Some_inj in A, B. subst a b. rewrite inject_S. ring.
Qed.
Lemma shift_uniform step t p : uniform step t -> uniform step (shift t p).
Proof.
  intros U i a b A B. unfold shift in *. rewrite nth_error_map in A, B.
  destruct (nth_error t i) as [x|] eqn:X; [|discriminate]. destruct (nth_error t (S i)) as [y|] eqn:Y; [|discriminate].
  apply Some_inj in A, B. subst a b. specialize (U i x y X Y). lra.
Qed.
Lemma shift_length t p : length (shift t p) = length t.
Proof. apply map_length. Qed.
Lemma ticks_length step n : length (ticks step n) = n.
Proof. unfold ticks. now rewrite map_length, seq_length. Qed.
Lemma uniform_increasing step t : (0 < step)%Q -> uniform step t -> increasing t.
Proof.
  intros P U. assert (K : forall d i a b, nth_error t i = Some a -> nth_error t (i + S d) = Some b -> (a < b)%Q).
  { induction d as [|d IH]; intros i a b A B.
    - replace (i + 1) with (S i) in B by lia. specialize (U i a b A B). lra.
    - assert (L : i + S d < length t) by (assert (i + S (S d) < length t) by (apply nth_error_Some; congruence); lia).
      destruct (nth_error t (i + S d)) as [c|] eqn:C; [|apply nth_error_None in C; lia]. specialize (IH i a c A C).
      replace (i + S (S d)) with (S (i + S d)) in B by lia. specialize (U _ c b C B). lra. }
  intros i j a b L A B. apply (K (j - i - 1) i a b A). now replace (i + S (j - i - 1)) with j by lia.
Qed.

(** ** the peak of shifted data *)
Lemma peak_long t f r : peak_time_via_quadratic_fit t f = Ok r -> 5 <= length t.
Proof.
  unfold peak_time_via_quadratic_fit. intros H. apply bind_ok in H. destruct H as (i0 & _ & H). apply bind_ok in H. destruct H as (ti & _ & H).
  destruct (length (map _ _) =? 5) eqn:E in H; [|discriminate]. apply Nat.eqb_eq in E. rewrite map_length, slice_length in E. lia.
Qed.
Lemma Qmult_1_l_eq x : (1 * x)%Q = x.
Proof. destruct x as [n d]. unfold Qmult. cbn [Qnum Qden]. now rewrite Z.mul_1_l. Qed.
Lemma peak_shifted t f tp fp p : length t = length f -> increasing t -> peak_time_via_quadratic_fit t f = Ok (tp, fp) -> (p == tp)%Q ->
  exists tp' fp', peak_time_via_quadratic_fit (shift t p) f = Ok (tp', fp') /\ (tp' == 0)%Q.
Proof.
  intros L I H PT. pose proof (peak_long _ _ _ H) as L5.
  pose proof (peak_equivariant t f 1 (- p) 1 L L5 I ltac:(lra) ltac:(lra)) as P. rewrite H in P. destruct P as (tp' & fp' & P & P1 & _).
  exists tp', fp'. split; [|lra].
  replace (map (fun y => 1 * y)%Q f) with f in P by (rewrite <- (map_id f) at 1; apply map_ext; intros; now rewrite Qmult_1_l_eq).
  replace (shift t p) with (map (fun x => 1 * x + - p)%Q t); [exact P|]. unfold shift. apply map_ext. intros x. now rewrite Qmult_1_l_eq.
Qed.
Section Wave.
  Variable S : sources.
  Lemma sums_length (d : modes) : forall acc s,
    sum_squares (list cnum) (map (cabs S)) "hlm" acc (map (fun kv => (fst kv, inl (snd kv))) d) = Ok s ->
    length s = length acc /\ forall lm h, In (lm, h) d -> length h = length acc.
  Proof.
    induction d as [|[k x] d IH]; intros acc s H; cbn [map sum_squares fst snd] in H.
    - apply Ok_inj in H. subst. split; [reflexivity|]. intros lm h [].
    - unfold mode_square in H. cbn [String.eqb Ascii.eqb Bool.eqb bind] in H. unfold zip_with in H.
      rewrite !map_length in H. destruct (length acc =? length x) eqn:E; cbn [bind] in H; [|discriminate]. apply Nat.eqb_eq in E.
      destruct (IH _ _ H) as [A B]. rewrite map2_length, !map_length in A, B. split; [lia|].
      intros lm h [X|X]; [injection X as <- <-; lia|]. specialize (B lm h X). lia.
  Qed.
  Lemma amplitude_length d a : all_modes_amplitude S d = Ok a -> d <> [] /\ forall lm h, In (lm, h) d -> length h = length a.
  Proof.
    unfold all_modes_amplitude, amplitude_using_all_modes. destruct d as [|[k x] d]; cbn [map fst snd]; [discriminate|]. intros H. split; [discriminate|].
    unfold mode_square in H at 1. cbn [String.eqb Ascii.eqb Bool.eqb bind] in H. apply bind_ok in H. destruct H as (s & E & H). apply Ok_inj in H. subst a.
    destruct (sums_length _ _ _ E) as [A B]. rewrite !map_length in A, B. rewrite map_length. intros lm h [X|X]; [injection X as <- <-; lia|].
    rewrite A. exact (B lm h X).
  Qed.
  Lemma peak_of_shift t d p : peak_of S t d = Ok p -> fits t d -> increasing t -> merger_at_zero S (shift t p) d.
  Proof.
    unfold merger_at_zero. change (peak_time S) with (peak_of S). unfold peak_of. intros H F I. apply bind_ok in H. destruct H as (a & A & H). apply bind_ok in H. destruct H as ([tp fp] & P & H).
    apply Ok_inj in H. cbn [fst] in H. assert (PT : (p == tp)%Q) by (subst p; apply Qred_correct). rewrite A. cbn [bind].
    assert (L : length t = length a).
    { destruct (amplitude_length d a A) as [N B]. destruct d as [|[lm h] d]; [congruence|]. rewrite <- (B lm h (or_introl eq_refl)). symmetry. apply (F lm h). now left. }
    destruct (peak_shifted t a tp fp p L I P PT) as (tp' & fp' & P' & Z). rewrite P'. cbn [bind fst]. exists (Qred tp'). split; [reflexivity|]. now rewrite Qred_correct.
  Qed.

  (** ** inversion *)
  Definition units_of (ph : bool) (M D : option Q) (m d : Q) : Prop := if ph then M = Some m /\ D = Some d else m = 10%Q /\ d = 1%Q.
  Lemma generate_ok a q c1 c2 dt om e phi inc ph M D t h : generate_LAL_waveform S a q c1 c2 dt om e phi inc ph M D = Ok (t, h) ->
    exists s1 s2 m d dist raw, spin_checks c1 c2 = Ok (s1, s2) /\ units_of ph M D m d /\ (dist == d * 1000000 * so_pc S)%Q /\
      so_td S {| td_m1 := (m * so_msun S * q / (1 + q))%Q; td_m2 := (m * so_msun S / (1 + q))%Q; td_spin1 := s1; td_spin2 := s2;
                 td_distance := dist; td_inclination := inc; td_phi := phi; td_nodes := 0; td_ecc := e; td_anomaly := 0;
                 td_dt := (dt * (m * so_mtsun S))%Q; td_flow := (om / np_pi / (m * so_mtsun S))%Q; td_fref := (om / np_pi / (m * so_mtsun S))%Q; td_approximant := a |} = Ok raw /\
      t = ticks (if ph then dt * (m * so_mtsun S) else dt)%Q (length raw) /\
      h = (if ph then raw else map (cscale (dist / (m * so_mtsun S) / so_c S)%Q) raw).
  Proof.
    unfold generate_LAL_waveform. intros H. apply bind_ok in H. destruct H as ([s1 s2] & SP & H). apply bind_ok in H. destruct H as ([m dist] & U & H).
    apply bind_ok in H. destruct H as (raw & R & H). apply Ok_inj in H. injection H as <- <-. cbn [fst snd] in R.
    destruct ph.
    - destruct M as [M|]; [|discriminate]. destruct D as [D|]; [|discriminate]. apply Ok_inj in U. injection U as <- <-.
      exists s1, s2, M, D, (D * 1000000 * so_pc S)%Q, raw. repeat split; try assumption; try reflexivity.
    - apply Ok_inj in U. injection U as <- <-. exists s1, s2, 10%Q, 1%Q, (1000000 * so_pc S)%Q, raw. repeat split; try assumption; try reflexivity; try ring.
  Qed.
  Record lal_args := { la_a : string; la_q : Q; la_c1 : list Q; la_c2 : list Q; la_e : Q; la_om : Q; la_dt : Q; la_ph : bool; la_M : option Q; la_D : option Q }.
  Definition reads (kw : lkwargs) (r : lal_args) : Prop :=
    slookup kw "approximant" = Some (Some (AStr (la_a r))) /\ slookup kw "q" = Some (Some (ANum (la_q r))) /\
    slookup kw "chi1" = Some (Some (AVec (la_c1 r))) /\ slookup kw "chi2" = Some (Some (AVec (la_c2 r))) /\ slookup kw "ecc" = Some (Some (ANum (la_e r))) /\
    slookup kw "Momega0" = Some (Some (ANum (la_om r))) /\ slookup kw "deltaTOverM" = Some (Some (ANum (la_dt r))) /\
    (exists v, slookup kw "physicalUnits" = Some v /\ on v = la_ph r) /\ slookup kw "M" = Some (option_map ANum (la_M r)) /\ slookup kw "D" = Some (option_map ANum (la_D r)) /\
    exists v, slookup kw "mean_ano" = Some (Some v).
  Definition with_args (r : lal_args) : res (list Q * modes) :=
    load_LAL_waveform_using_hack S (la_a r) (la_q r) (la_c1 r) (la_c2 r) (la_e r) None (la_om r) (la_dt r) (la_ph r) (la_M r) (la_D r).
  Lemma num_get (kw : lkwargs) k x : (do v <- sget kw k; num v) = Ok x -> slookup kw k = Some (Some (ANum x)).
  Proof. intros H. apply bind_ok in H. destruct H as (v & E & H). apply sget_ok in E. destruct v as [[]|]; try discriminate. apply Ok_inj in H. now subst. Qed.
  Lemma str_get (kw : lkwargs) k x : (do v <- sget kw k; str v) = Ok x -> slookup kw k = Some (Some (AStr x)).
  Proof. intros H. apply bind_ok in H. destruct H as (v & E & H). apply sget_ok in E. destruct v as [[]|]; try discriminate. apply Ok_inj in H. now subst. Qed.
  Lemma vec_get (kw : lkwargs) k x : (do v <- sget kw k; vec v) = Ok x -> slookup kw k = Some (Some (AVec x)).
  Proof. intros H. apply bind_ok in H. destruct H as (v & E & H). apply sget_ok in E. destruct v as [[]|]; try discriminate. apply Ok_inj in H. now subst. Qed.
  Lemma opt_get (kw : lkwargs) k x : (do v <- sget kw k; num_or_none v) = Ok x -> slookup kw k = Some (option_map ANum x).
  Proof. intros H. apply bind_ok in H. destruct H as (v & E & H). apply sget_ok in E. destruct v as [[]|]; try discriminate; apply Ok_inj in H; now subst. Qed.
  Lemma true_get (kw : lkwargs) k b : has_true kw k = Ok b -> exists v, slookup kw k = Some v /\ on v = b.
  Proof. intros H. apply bind_ok in H. destruct H as (v & E & H). apply sget_ok in E. apply Ok_inj in H. eauto. Qed.
  Lemma once_ok u kw r : load_LAL_once S u = Ok (kw, r) ->
    check_kwargs_and_set_defaults (Some u) (published "LAL") = Ok kw /\ exists args, reads kw args /\ with_args args = Ok r.
  Proof.
    unfold load_LAL_once. change lal_defaults with (published "LAL"). intros H. apply bind_ok in H. destruct H as (x & X & H). apply bind_ok in H. destruct H as (y & Y & H).
    apply bind_ok in H. destruct H as (a & A & H). apply bind_ok in H. destruct H as (q & Q' & H). apply bind_ok in H. destruct H as (c1 & C1 & H).
    apply bind_ok in H. destruct H as (c2 & C2 & H). apply bind_ok in H. destruct H as (e & E & H). apply bind_ok in H. destruct H as (an & AN & H).
    apply bind_ok in H. destruct H as (om & OM & H). apply bind_ok in H. destruct H as (dt & DT & H). apply bind_ok in H. destruct H as (ph & PH & H).
    apply bind_ok in H. destruct H as (M & MM & H). apply bind_ok in H. destruct H as (D & DD & H). apply bind_ok in H. destruct H as (r' & R & H).
    apply Ok_inj in H. injection H as <- <-. split; [exact X|].
    exists {| la_a := a; la_q := q; la_c1 := c1; la_c2 := c2; la_e := e; la_om := om; la_dt := dt; la_ph := ph; la_M := M; la_D := D |}.
    split; [|exact R]. apply str_get in A. apply num_get in Q', E, OM, DT. apply vec_get in C1, C2. apply true_get in PH. apply opt_get in MM, DD.
    repeat split; cbn; try assumption. destruct y. apply (proj1 (raise_if_none_spec x _) Y). cbn; tauto.
  Qed.
  Lemma with_args_ok r t d : with_args r = Ok (t, d) ->
    exists t0 h p, generate_LAL_waveform S (la_a r) (la_q r) (la_c1 r) (la_c2 r) (la_dt r) (la_om r) (la_e r) 0 0 (la_ph r) (la_M r) (la_D r) = Ok (t0, h) /\
      d = [((2, 2)%Z, map (cscale (/ so_ylm S)%Q) h)] /\ peak_of S t0 d = Ok p /\ t = shift t0 p.
  Proof.
    unfold with_args, load_LAL_waveform_using_hack. intros H. apply bind_ok in H. destruct H as ([t0 h] & G & H). apply bind_ok in H. destruct H as (p & P & H).
    apply Ok_inj in H. injection H as <- <-. exists t0, h, p. cbn [fst snd] in P |- *. auto.
  Qed.
  (** a successful load contains the data of one generated waveform *)
  Lemma lal_data fuel u data : load_LAL_waveform S fuel u = Ok data ->
    exists kw t d, load_LAL_once S u = Ok (kw, (t, d)) /\ holds data "t" (DTime t) /\ holds data "hlm" (DModes d).
  Proof.
    unfold load_LAL_waveform. intros H. apply bind_ok in H. destruct H as ([kw [t d]] & O & H). exists kw, t, d. split; [exact O|].
    apply bind_ok in H. destruct H as (z & Z & H). destruct z.
    - apply bind_ok in H. destruct H as (a & A & H). apply bind_ok in H. destruct H as (f & F & H). apply bind_ok in H. destruct H as (t0 & T & H).
      apply bind_ok in H. destruct H as (l & L & H). apply Ok_inj in H. subst. split; reflexivity.
    - apply Ok_inj in H. subst. split; reflexivity.
  Qed.
End Wave.
