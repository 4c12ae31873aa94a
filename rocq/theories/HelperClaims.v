(** Combined statements about the helpers, and data for the examples. *)
From Coq Require Import Lia Lqa Sorted Qabs.
From Verif Require Import Base BaseLemmas UtilsModel UtilsSpec DataModel DataLemmas2 InitModel FilterModel FilterSpec HelperModel HelperSpec CompareLemmas HelperLemmas.
Open Scope nat_scope.

Lemma removed_where K (phase : list K -> list Q) t d n t' d' h p0 : remove_junk phase t d n = Ok (t', d') -> mode_of d (2, 2)%Z h -> increasing (phase h) ->
  nth_error (phase h) 0 = Some p0 ->
  exists i, without_first i t d t' d' /\ i < length (phase h) /\
    forall j p, nth_error (phase h) j = Some p -> (j < i -> (p < p0 + n * 4 * np_pi)%Q) /\ (i < j -> (p0 + n * 4 * np_pi < p)%Q).
Proof.
  intros H M I P. apply removed in H. destruct H as (h' & p' & i & M' & P' & N & W). assert (h' = h) by (unfold mode_of in *; congruence). subst h'. assert (p' = p0) by congruence. subst p'.
  exists i. split; [exact W|]. split; [destruct N as (a & A & _); apply nth_error_Some; congruence|]. exact (nearest_split _ _ _ I N).
Qed.
Lemma without_none K t (d : mdict (list K)) t' d' : drop_start 0 t d = (t', d') -> t' = t /\ d' = d.
Proof. intros H. injection H as <- <-. split; [reflexivity|]. rewrite <- (map_id d) at 2. apply map_ext. intros [k v]. reflexivity. Qed.
Lemma removed_none K (phase : list K -> list Q) t d n t' d' h : remove_junk phase t d n = Ok (t', d') -> mode_of d (2, 2)%Z h -> increasing (phase h) -> (n <= 0)%Q ->
  t' = t /\ d' = d.
Proof.
  unfold remove_junk. intros H M I N. apply bind_ok in H. destruct H as (h' & E & H). apply mget_ok in E. assert (h' = h) by (unfold mode_of in *; congruence). subst h'.
  apply bind_ok in H. destruct H as (p0 & P & H). apply bind_ok in H. destruct H as (i & X & H). apply Ok_inj in H. apply get_ok in P. apply argmin_nearest in X.
  assert (i = 0). { apply (nearest_start _ _ _ _ I X P). assert (n * 4 * np_pi <= 0)%Q; [|lra]. assert (0 < np_pi)%Q by reflexivity. nra. }
  subst i. now apply without_none.
Qed.
Lemma removed_beyond K (phase : list K -> list Q) t d n t' d' h p0 pn : remove_junk phase t d n = Ok (t', d') -> mode_of d (2, 2)%Z h -> increasing (phase h) ->
  nth_error (phase h) 0 = Some p0 -> nth_error (phase h) (length (phase h) - 1) = Some pn -> (pn <= p0 + n * 4 * np_pi)%Q ->
  length t = length (phase h) -> (forall lm v, mode_of d lm v -> length v = length (phase h)) ->
  length t' = 1 /\ forall lm v, mode_of d lm v -> exists v', mode_of d' lm v' /\ length v' = 1.
Proof.
  intros H M I P PN X LT LV. assert (0 < length (phase h)) by (apply nth_error_Some; congruence). apply removed in H. destruct H as (h' & p' & i & M' & P' & N & (W1 & W2 & W3)).
  assert (h' = h) by (unfold mode_of in *; congruence). subst h'. assert (p' = p0) by congruence. subst p'. assert (E := nearest_end _ _ _ _ I N PN X). subst i t'. split.
  - rewrite skipn_length. lia.
  - intros lm v V. eexists. split; [apply (W3 lm v V)|]. rewrite skipn_length, (LV lm v V). lia.
Qed.
Lemma removed_horizons_where K t (d : mdict (list K)) n time ph t' d' : remove_junk_horizons t d n time ph = Ok (t', d') -> increasing t -> increasing ph ->
  exists p0 j a b i, nth_error ph 0 = Some p0 /\ nth_error time j = Some a /\ nth_error time 0 = Some b /\
    (forall k p, nth_error ph k = Some p -> (k < j -> (p < p0 + n * 2 * np_pi)%Q) /\ (j < k -> (p0 + n * 2 * np_pi < p)%Q)) /\
    without_first i t d t' d' /\ i < length t /\ (forall k x, nth_error t k = Some x -> (k < i -> (x < a - b)%Q) /\ (i < k -> (a - b < x)%Q)).
Proof.
  intros H I1 I2. apply removed_horizons in H. destruct H as (p0 & j & a & b & i & P & J & A & B & I & W). exists p0, j, a, b, i. repeat (split; [assumption|]).
  split; [exact (nearest_split _ _ _ I2 J)|]. split; [exact W|]. split; [destruct I as (x & X & _); apply nth_error_Some; congruence|]. exact (nearest_split _ _ _ I1 I).
Qed.

(** ** example data *)
Definition hx_one : measured :=
  {| ms_tref_in := [0; 1; 2; 3; 4; 5]%Q; ms_tmin := 1; ms_tmax := 5; ms_tref_out := [1; 2; 3; 4; 5]%Q; ms_ecc := [5 # 10; 4 # 10; 3 # 10; 2 # 10; 1 # 10]%Q; ms_ano := [1; 3; 5; 7 # 10; 2]%Q |}.
Definition hx_two : measured :=
  {| ms_tref_in := [0; 1; 2; 3; 4; 5]%Q; ms_tmin := 2; ms_tmax := 6; ms_tref_out := [2; 3; 4; 5]%Q; ms_ecc := [41 # 100; 3 # 10; 19 # 100; 1 # 10]%Q; ms_ano := [3; 51 # 10; 7 # 10; 2]%Q |}.
(** a measurement that ends before the other begins *)
Definition hx_late : measured :=
  {| ms_tref_in := [0; 1; 2; 3; 4; 5]%Q; ms_tmin := 11 # 2; ms_tmax := 6; ms_tref_out := []; ms_ecc := []; ms_ano := [] |}.
(** two measurements whose mean anomalies are next to each other on the circle *)
Definition hx_small : measured := {| ms_tref_in := [1; 2; 3]%Q; ms_tmin := 1; ms_tmax := 4; ms_tref_out := [1; 2; 3]%Q; ms_ecc := [1 # 10; 1 # 10; 1 # 10]%Q; ms_ano := [1 # 1000; 1; 2]%Q |}.
Definition hx_large : measured := {| ms_tref_in := [1; 2; 3]%Q; ms_tmin := 1; ms_tmax := 4; ms_tref_out := [1; 2; 3]%Q; ms_ecc := [1 # 10; 1 # 10; 1 # 10]%Q; ms_ano := [2 * np_pi - (1 # 1000); 1; 2]%Q |}.
(** a mean anomaly that starts a turn later *)
Definition hx_turn : measured := {| ms_tref_in := [1; 2; 3]%Q; ms_tmin := 1; ms_tmax := 4; ms_tref_out := [1; 2; 3]%Q; ms_ecc := [1 # 10; 1 # 10; 1 # 10]%Q; ms_ano := [(1 # 1000) + 2 * np_pi; 1; 2]%Q |}.
Lemma turns_witness : exists o1 o2 r e, well_formed o1 /\ well_formed o2 /\
  (forall x, In x (ms_ano o1) \/ In x (ms_ano o2) -> (0 <= x)%Q /\ (x < 2 * np_pi)%Q) /\ compute_errors_between_methods o1 o2 None None = Ok r /\
  nth_error (cp_ano1 r) 1 = nth_error (cp_ano2 r) 1 /\ nth_error (cp_ano_errors r) 1 = Some e /\ (e == 2 * np_pi)%Q.
Proof.
  exists hx_small, hx_large. eexists. eexists. split; [split; reflexivity|]. split; [split; reflexivity|]. split.
  - intros x [H|H]; cbn in H; repeat (destruct H as [H|H]; [rewrite <- H; split; [discriminate|reflexivity]|]); destruct H.
  - split; [reflexivity|]. split; [reflexivity|]. split; [reflexivity|]. vm_compute. reflexivity.
Qed.
Definition hx_modes : mdict (list Q) :=
  [((3, 3)%Z, [33; 33]%Q); ((2, 2)%Z, [22; 22]%Q); ((2, -2)%Z, [1; 1]%Q); ((2, -1)%Z, [2; 2]%Q); ((2, 0)%Z, [3; 3]%Q); ((2, 1)%Z, [4; 4]%Q); ((4, 4)%Z, [0; 0]%Q);
   ((3, -3)%Z, [5; 5]%Q); ((3, -2)%Z, [6; 6]%Q); ((3, -1)%Z, [7; 7]%Q); ((3, 0)%Z, [8; 8]%Q); ((3, 1)%Z, [9; 9]%Q); ((3, 2)%Z, [10; 10]%Q)].
Lemma hx_complete : complete_modes hx_modes 2 3 2.
Proof.
  split; [exists [22; 22]%Q; split; reflexivity|]. intros lm H. apply (mode_list_in 2 3 lm ltac:(lia)) in H.
  vm_compute in H. repeat (destruct H as [<-|H]; [eexists; split; reflexivity|]). destruct H.
Qed.
(** a (2, 2) mode that stands for its own phase: 6 radians per sample *)
Definition hx_phase (h : list Q) : list Q := h.
Definition hx_wave : mdict (list Q) := [((2, 2)%Z, [0; 6; 12; 18; 24; 30]%Q); ((3, 3)%Z, [1; 2; 3; 4; 5; 6]%Q)].
Definition hx_times : list Q := [-2; -1; 0; 1; 2; 3]%Q.
Lemma hx_increasing : increasing [0; 6; 12; 18; 24; 30]%Q.
Proof.
  intros i j a b I A B. do 6 (destruct i as [|i]; [do 6 (destruct j as [|j]; [cbn in A, B; try lia; apply Some_inj in A, B; subst; reflexivity|]); destruct j; discriminate|]). destruct i; discriminate.
Qed.
