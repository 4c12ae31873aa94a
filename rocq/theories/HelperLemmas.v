(** Proofs about the truncation helper, the packing of modes and the removal of junk. *)
From Coq Require Import Lia Lqa Sorted Qabs.
From Verif Require Import Base BaseLemmas UtilsModel UtilsSpec DataModel DataLemmas2 InitModel InitSpec InitLemmas FilterModel FilterSpec HelperModel HelperSpec.
Open Scope string_scope.
Open Scope nat_scope.

(** ** truncation *)
Lemma truncation_raises C V X (L : library C V) (rest : object -> W X) d m w :
  truncate_waveform_by_flow L rest d m w =
    (w, ([], Err match d with None => ValueError | Some _ => if existsb (String.eqb m) available_methods then KeyError else NameError end)).
Proof. unfold truncate_waveform_by_flow. destruct d as [p|]; [|reflexivity]. destruct (existsb _ _); reflexivity. Qed.

Lemma truncation_claim C V X (L : library C V) (rest : object -> W X) m w :
  truncate_waveform_by_flow L rest None m w = (w, ([], Err ValueError)) /\
  (forall p, In m method_names -> truncate_waveform_by_flow L rest (Some p) m w = (w, ([], Err KeyError))) /\
  (forall p, ~ In m method_names -> truncate_waveform_by_flow L rest (Some p) m w = (w, ([], Err NameError))).
Proof.
  rewrite truncation_raises. split; [reflexivity|]. split; intros p H; rewrite truncation_raises; destruct (existsb _ _) eqn:E; try reflexivity; exfalso.
  - assert (T : existsb (String.eqb m) available_methods = true); [|congruence]. apply existsb_exists. exists m. split; [exact H|apply String.eqb_refl].
  - apply H. apply existsb_exists in E. destruct E as (x & I & Q). apply String.eqb_eq in Q. subst x. exact I.
Qed.
(** ** the order of the modes *)
Lemma zrange_nth a b k x : nth_error (zrange a b) k = Some x <-> (x = a + Z.of_nat k /\ x < b)%Z.
Proof.
  unfold zrange. rewrite nth_error_map. destruct (Nat.lt_ge_cases k (Z.to_nat (b - a))) as [K|K].
  - assert (E : nth_error (seq 0 (Z.to_nat (b - a))) k = Some k).
    { rewrite (nth_error_nth' _ 0) by (now rewrite seq_length). now rewrite seq_nth. }
    rewrite E. cbn. split; [intros H; apply Some_inj in H; subst; lia|intros [-> _]; reflexivity].
  - assert (E : nth_error (seq 0 (Z.to_nat (b - a))) k = None) by (apply nth_error_None; now rewrite seq_length). rewrite E. cbn. split; [discriminate|lia].
Qed.
Lemma zrange_length a b : length (zrange a b) = Z.to_nat (b - a).
Proof. unfold zrange. now rewrite map_length, seq_length. Qed.
Lemma zrange_last a b : (a <= b)%Z -> zrange a (b + 1) = (zrange a b ++ [b])%list.
Proof.
  intros H. unfold zrange. replace (Z.to_nat (b + 1 - a)) with (S (Z.to_nat (b - a))) by lia. rewrite seq_S, map_app. cbn. do 2 f_equal. lia.
Qed.
Definition row (l : Z) : list mode := map (fun m => (l, m)) (zrange (- l) (l + 1)).
Lemma row_length l : (0 <= l)%Z -> Z.of_nat (length (row l)) = (2 * l + 1)%Z.
Proof. intros H. unfold row. rewrite map_length, zrange_length. lia. Qed.
Lemma row_nth l k lm : nth_error (row l) k = Some lm <-> (fst lm = l /\ snd lm = - l + Z.of_nat k /\ snd lm <= l)%Z.
Proof.
  unfold row. rewrite nth_error_map. destruct (nth_error (zrange (- l) (l + 1)) k) as [m|] eqn:E.
  - apply zrange_nth in E. cbn. split; [intros H; apply Some_inj in H; subst; cbn; lia|]. destruct lm as [l' m']. cbn. intros (-> & -> & _). f_equal. f_equal. lia.
  - cbn. split; [discriminate|]. intros (A & B & D). assert (X : nth_error (zrange (- l) (l + 1)) k = Some (snd lm)) by (apply zrange_nth; lia). congruence.
Qed.
Lemma mode_list_spec n : forall a, (0 <= a)%Z -> let b := (a - 1 + Z.of_nat n)%Z in
  Z.of_nat (length (mode_list a b)) = ((b + 1) * (b + 1) - a * a)%Z /\
  forall k lm, nth_error (mode_list a b) k = Some lm <-> in_range a b lm /\ Z.of_nat k = (fst lm * (fst lm + 1) - a * a + snd lm)%Z.
Proof.
  induction n as [|n IH]; intros a A b.
  - unfold b. assert (E : mode_list a (a - 1 + Z.of_nat 0) = []) by (unfold mode_list, zrange; replace (Z.to_nat (a - 1 + Z.of_nat 0 + 1 - a)) with 0 by lia; reflexivity).
    rewrite E. split; [cbn [length]; nia|]. intros [|k] lm; cbn; (split; [discriminate|]); intros [R _]; unfold in_range in R; lia.
  - destruct (IH a A) as [L N]. set (b' := (a - 1 + Z.of_nat n)%Z) in *. assert (EB : b = (b' + 1)%Z) by (unfold b, b'; lia).
    assert (E : mode_list a b = (mode_list a b' ++ row b)%list).
    { unfold mode_list. rewrite EB at 1. rewrite zrange_last by (unfold b'; lia). rewrite flat_map_app. cbn [flat_map]. rewrite app_nil_r. now rewrite <- EB. }
    assert (R := row_length b). rewrite E, app_length. split; [rewrite Nat2Z.inj_add, L, R by (unfold b; lia); nia|].
    intros k lm. destruct (Nat.lt_ge_cases k (length (mode_list a b'))) as [K|K].
    + rewrite nth_error_app1 by exact K. rewrite N. unfold in_range. split; intros [X Y]; (split; [|exact Y]); [lia|].
      split; [|lia]. split; [lia|]. destruct (Z.eq_dec (fst lm) b) as [F|F]; [|lia]. exfalso. rewrite F in *. nia.
    + rewrite nth_error_app2 by exact K. rewrite row_nth. unfold in_range. split.
      * intros (X & Y & Z0). rewrite X in *. split; [unfold b in *; lia|]. rewrite Nat2Z.inj_sub in Y by exact K. nia.
      * intros [X Y]. destruct (Z.eq_dec (fst lm) b) as [F|F]; [rewrite Nat2Z.inj_sub by exact K; rewrite F in *; nia|]. exfalso.
        assert ((fst lm <= b')%Z) by lia. assert ((fst lm * (fst lm + 1) + snd lm <= b' * (b' + 1) + b')%Z) by nia. nia.
Qed.
Lemma mode_list_nth a b k lm : (0 <= a <= b)%Z -> nth_error (mode_list a b) k = Some lm <-> in_range a b lm /\ k = column a lm.
Proof.
  intros H. assert (E : b = (a - 1 + Z.of_nat (Z.to_nat (b - a + 1)))%Z) by lia. destruct (mode_list_spec (Z.to_nat (b - a + 1)) a (proj1 H)) as [_ N]. rewrite <- E in N. rewrite N.
  unfold column. split; intros [X Y]; (split; [exact X|]); [lia|]. subst k. apply Z2Nat.id. unfold in_range in X. nia.
Qed.
Lemma mode_list_length a b : (0 <= a <= b)%Z -> Z.of_nat (length (mode_list a b)) = ((b + 1) * (b + 1) - a * a)%Z.
Proof.
  intros H. assert (E : b = (a - 1 + Z.of_nat (Z.to_nat (b - a + 1)))%Z) by lia. destruct (mode_list_spec (Z.to_nat (b - a + 1)) a (proj1 H)) as [L _]. now rewrite <- E in L.
Qed.
Lemma mode_list_in a b lm : (0 <= a <= b)%Z -> In lm (mode_list a b) <-> in_range a b lm.
Proof.
  intros H. split; [intros I; apply In_nth_error in I; destruct I as [k K]; apply mode_list_nth in K; tauto|]. intros I. apply (nth_error_In _ (column a lm)). apply mode_list_nth; auto.
Qed.

(** ** packing *)
Section Packing.
  Context {K : Type} (zero : K).
  Lemma set_column_ok cols : forall i c r, set_column cols i c = Ok r -> i < length cols /\ length r = length cols /\ nth_error r i = Some c /\
    forall j : nat, j <> i -> nth_error r j = @nth_error (list K) cols j.
  Proof.
    induction cols as [|x cols IH]; intros i c r H; [destruct i; discriminate|]. destruct i as [|i]; cbn in H.
    - apply Ok_inj in H. subst r. cbn. repeat split; [lia|]. intros [|j] J; [congruence|reflexivity].
    - apply bind_ok in H. destruct H as (s & E & H). apply Ok_inj in H. subst r. destruct (IH _ _ _ E) as (A & B & D & F). cbn. repeat split; [lia|lia|exact D|].
      intros [|j] J; [reflexivity|]. cbn. apply F. lia.
  Qed.
  Lemma set_column_total (cols : list (list K)) : forall i c, i < length cols -> exists r, set_column cols i c = Ok r.
  Proof. induction cols as [|x cols IH]; intros [|i] c H; cbn in *; try lia; [eauto|]. destruct (IH i c) as [r E]; [lia|]. rewrite E. cbn. eauto. Qed.
  Lemma set_column_err (cols : list (list K)) : forall i c, length cols <= i -> set_column cols i c = Err IndexError.
  Proof. induction cols as [|x cols IH]; intros i c H; [reflexivity|]. destruct i as [|i]; cbn in *; [lia|]. rewrite IH by lia. reflexivity. Qed.
  Lemma fill_ok d n : forall ms i cols (r : list (list K)), fill d n ms i cols = Ok r -> length r = length cols /\
    (forall k lm, nth_error ms k = Some lm -> exists v c, mode_of d lm v /\ as_column n v = Ok c /\ nth_error r (i + k) = Some c) /\
    (forall j, j < i \/ i + length ms <= j -> nth_error r j = nth_error cols j).
  Proof.
    induction ms as [|m ms IH]; intros i cols r H; cbn in H.
    - apply Ok_inj in H. subst r. repeat split. intros [|k] lm X; discriminate.
    - destruct (dlookup mode_eqb d m) as [v|] eqn:E; [|discriminate]. apply bind_ok in H. destruct H as (c & C & H). apply bind_ok in H. destruct H as (cols' & S & H).
      apply set_column_ok in S. destruct S as (S1 & S2 & S3 & S4). destruct (IH _ _ _ H) as (A & B & D). split; [congruence|]. split.
      + intros [|k] lm X; cbn in X.
        * apply Some_inj in X. subst m. exists v, c. split; [exact E|]. split; [exact C|]. rewrite Nat.add_0_r. rewrite D by lia. exact S3.
        * destruct (B k lm X) as (v' & c' & V & C' & R). exists v', c'. replace (i + S k) with (S i + k) by lia. auto.
      + intros j J. cbn [length] in J. rewrite D by lia. apply S4. lia.
  Qed.
  Definition sized (d : mdict (list K)) (n : nat) (lm : mode) := forall v, mode_of d lm v -> exists c, as_column n v = Ok c.
  Lemma fill_total d n : forall ms i (cols : list (list K)), (forall lm, In lm ms -> sized d n lm) -> (forall lm, In lm ms -> exists v, mode_of d lm v) -> i + length ms <= length cols ->
    exists r, fill d n ms i cols = Ok r.
  Proof.
    induction ms as [|m ms IH]; intros i cols S F L; cbn in *; [eauto|]. destruct (F m) as [v V]; [auto|]. destruct (S m (or_introl eq_refl) v V) as [c C]. unfold mode_of in V. rewrite V, C. cbn.
    destruct (set_column_total cols i c) as [r R]; [lia|]. rewrite R. cbn. apply IH; auto. apply set_column_ok in R. lia.
  Qed.
  Lemma fill_missing d n : forall ms i (cols : list (list K)), (forall lm, In lm ms -> sized d n lm) -> i + length ms <= length cols ->
    (exists lm, In lm ms /\ forall v, ~ mode_of d lm v) -> fill d n ms i cols = Err GenericException.
  Proof.
    induction ms as [|m ms IH]; intros i cols S L (lm & I & N); [destruct I|]. cbn in *. destruct (dlookup mode_eqb d m) as [v|] eqn:E; [|reflexivity].
    destruct (S m (or_introl eq_refl) v E) as [c C]. rewrite C. cbn. destruct (set_column_total cols i c) as [r R]; [lia|]. rewrite R. cbn.
    apply IH; auto; [apply set_column_ok in R; lia|]. exists lm. split; [|exact N]. destruct I as [->|I]; [now apply N in E|exact I].
  Qed.
  Lemma fill_small d n : forall ms i (cols : list (list K)), (forall lm, In lm ms -> sized d n lm) -> (forall lm, In lm ms -> exists v, mode_of d lm v) ->
    i <= length cols < i + length ms -> fill d n ms i cols = Err IndexError.
  Proof.
    induction ms as [|m ms IH]; intros i cols S F L; cbn in *; [lia|]. destruct (F m) as [v V]; [auto|]. destruct (S m (or_introl eq_refl) v V) as [c C]. unfold mode_of in V. rewrite V, C. cbn.
    destruct (Nat.lt_ge_cases i (length cols)) as [I|I]; [|now rewrite set_column_err]. destruct (set_column_total cols i c I) as [r R]. rewrite R. cbn. apply IH; auto. apply set_column_ok in R. lia.
  Qed.
  Lemma as_column_ok n (v c : list K) : as_column n v = Ok c -> length c = n /\ (length v = n -> c = v) /\ (length v <> n -> exists x, v = [x] /\ c = repeat x n).
  Proof.
    unfold as_column. destruct (Nat.eqb_spec (length v) n) as [E|E]; intros H.
    - apply Ok_inj in H. subst c. repeat split; auto. congruence.
    - destruct v as [|x [|y v]]; try discriminate. apply Ok_inj in H. subst c. rewrite repeat_length. repeat split; [congruence|eauto].
  Qed.
  Lemma as_column_same n (v : list K) : length v = n -> as_column n v = Ok v.
  Proof. intros E. unfold as_column. now rewrite E, Nat.eqb_refl. Qed.
  Lemma package_ok d a b cols : package_modes_for_scri zero d a b = Ok cols -> (0 <= a <= b)%Z ->
    exists h, mode_of d (2, 2)%Z h /\ Z.of_nat (length cols) = ((b + 3) * (b - 1))%Z /\
    (forall lm, in_range a b lm -> exists v c, mode_of d lm v /\ nth_error cols (column a lm) = Some c /\ length c = length h /\
       (length v = length h -> c = v) /\ (length v <> length h -> exists x, v = [x] /\ c = repeat x (length h))) /\
    (forall j c, nth_error cols j = Some c -> (forall lm, in_range a b lm -> column a lm <> j) -> c = repeat zero (length h)).
  Proof.
    intros H AB. unfold package_modes_for_scri in H. apply bind_ok in H. destruct H as (h & E & H). destruct (Z.ltb_spec ((b + 3) * (b - 1)) 0) as [N|N]; [discriminate|].
    apply mget_ok in E. apply fill_ok in H. destruct H as (L & P & Z0). rewrite repeat_length in L. exists h. split; [exact E|]. split; [lia|]. split.
    - intros lm R. assert (M : nth_error (mode_list a b) (column a lm) = Some lm) by (apply mode_list_nth; auto). destruct (P _ _ M) as (v & c & V & C & G). apply as_column_ok in C. exists v, c. cbn in G. tauto.
    - intros j c J F. destruct (Nat.lt_ge_cases j (length (mode_list a b))) as [K0|K0].
      + exfalso. destruct (nth_error (mode_list a b) j) as [lm|] eqn:M; [|apply nth_error_None in M; lia]. apply mode_list_nth in M; [|exact AB]. destruct M as [M1 M2]. now apply (F lm M1).
      + rewrite Z0 in J by (right; lia). apply nth_error_In, repeat_spec in J. exact J.
  Qed.
  Lemma complete_sized d a b n : (0 <= a <= b)%Z -> complete_modes d a b n -> (forall lm, In lm (mode_list a b) -> sized d n lm) /\ (forall lm, In lm (mode_list a b) -> exists v, mode_of d lm v).
  Proof.
    intros AB [_ C]. split; intros lm I; apply mode_list_in in I; auto; destruct (C lm I) as (v & V & L); [|eauto].
    intros v' V'. unfold mode_of in *. rewrite V in V'. apply Some_inj in V'. subst v'. exists v. now apply as_column_same.
  Qed.
  Lemma package_total d a b n : (2 <= a <= b)%Z -> complete_modes d a b n -> exists cols, package_modes_for_scri zero d a b = Ok cols.
  Proof.
    intros AB C. destruct (complete_sized d a b n) as [S F]; [lia|exact C|]. destruct C as [(h & H & L) _]. unfold package_modes_for_scri.
    rewrite (proj2 (mget_ok d (2, 2)%Z h) H). cbn [bind]. cbv zeta. destruct (Z.ltb_spec ((b + 3) * (b - 1)) 0) as [N|N]; [nia|]. rewrite L. apply fill_total; auto.
    rewrite repeat_length. assert (X := mode_list_length a b). nia.
  Qed.
  Lemma unpack_ok cols a b : (0 <= a <= b)%Z -> forall ms, (forall lm, In lm ms -> in_range a b lm /\ column a lm < length cols) ->
    exists r : mdict (list K), unpack_from cols a ms = Ok r /\ forall lm v, mode_of r lm v <-> In lm ms /\ nth_error cols (column a lm) = Some v.
  Proof.
    intros AB. induction ms as [|[l m] ms IH]; intros H; cbn [unpack_from].
    - exists []. split; [reflexivity|]. intros lm v. cbn. split; [discriminate|tauto].
    - destruct IH as (r & R & IH); [intros lm I; apply H; now right|]. destruct (H (l, m)) as [I1 I2]; [now left|]. unfold column in I2. cbn [fst snd] in I2.
      destruct (Z.ltb_spec (l * (l + 1) - a * a + m) 0) as [N|N]; [exfalso; unfold in_range in I1; cbn in I1; nia|].
      destruct (nth_error cols (Z.to_nat (l * (l + 1) - a * a + m))) as [c|] eqn:E; [|apply nth_error_None in E; lia]. assert (G : get cols (Z.to_nat (l * (l + 1) - a * a + m)) = Ok c) by (now apply get_ok).
      cbn [bind]. rewrite G. cbn [bind]. rewrite R. cbn [bind]. eexists. split; [reflexivity|]. intros lm v. unfold mode_of. cbn [dlookup]. destruct (mode_eqb lm (l, m)) eqn:Q.
      + apply mode_eqb_eq in Q. subst lm. unfold column. cbn [fst snd In]. rewrite E. split; [intros X; auto|tauto].
      + fold (mode_of r lm v). rewrite IH. cbn [In]. split; [tauto|]. intros [[X|X] Y]; [|auto]. subst lm. rewrite (proj2 (mode_eqb_eq _ _) eq_refl) in Q. discriminate.
  Qed.
  Lemma round_trip d a b n : (2 <= a <= b)%Z -> complete_modes d a b n ->
    exists cols r, package_modes_for_scri zero d a b = Ok cols /\ unpack_scri_modes cols a b = Ok r /\
      forall lm v, mode_of r lm v <-> in_range a b lm /\ mode_of d lm v.
  Proof.
    intros AB C. destruct (package_total d a b n AB C) as [cols P]. assert (AB' : (0 <= a <= b)%Z) by lia. destruct (package_ok _ _ _ _ P AB') as (h & H & L & G & _).
    assert (LH : length h = n). { destruct C as [(h' & H' & L') _]. unfold mode_of in *. congruence. }
    destruct (unpack_ok cols a b AB' (mode_list a b)) as (r & R & I).
    { intros lm I. apply mode_list_in in I; auto. split; [exact I|]. destruct (G lm I) as (v & c & _ & X & _). apply nth_error_Some. congruence. }
    exists cols, r. split; [exact P|]. split; [exact R|]. intros lm v. rewrite I, mode_list_in by exact AB'.
    assert (EQ : in_range a b lm -> (nth_error cols (column a lm) = Some v <-> mode_of d lm v)).
    { intros Q. destruct (G lm Q) as (v' & c & V & X & _ & S & _). destruct C as [_ C]. destruct (C lm Q) as (v'' & V'' & L''). assert (v'' = v') by (unfold mode_of in *; congruence). subst v''.
      rewrite S in X by lia. subst n. rewrite X. unfold mode_of in *. rewrite V. reflexivity. }
    tauto.
  Qed.
  Lemma package_missing d a b h : (2 <= a <= b)%Z -> mode_of d (2, 2)%Z h -> (forall lm v, in_range a b lm -> mode_of d lm v -> length v = length h) ->
    (exists lm, in_range a b lm /\ forall v, ~ mode_of d lm v) -> package_modes_for_scri zero d a b = Err GenericException.
  Proof.
    intros AB H S (lm & I & N). unfold package_modes_for_scri. rewrite (proj2 (mget_ok d (2, 2)%Z h) H). cbn [bind]. cbv zeta. destruct (Z.ltb_spec ((b + 3) * (b - 1)) 0) as [X|X]; [nia|].
    apply fill_missing.
    - intros m M v V. apply mode_list_in in M; [|lia]. exists v. apply as_column_same. now apply (S m).
    - rewrite repeat_length. assert (Y := mode_list_length a b). nia.
    - exists lm. split; [apply mode_list_in; [lia|exact I]|exact N].
  Qed.
  Lemma package_no22 d a b : (forall v, ~ mode_of d (2, 2)%Z v) -> package_modes_for_scri zero d a b = Err KeyError.
  Proof.
    intros N. unfold package_modes_for_scri, mget, dget. destruct (dlookup mode_eqb d (2, 2)%Z) as [v|] eqn:E; [now apply N in E|reflexivity].
  Qed.
  Lemma package_small d a b n : (0 <= a < 2)%Z -> (a <= b)%Z -> (1 <= b)%Z -> complete_modes d a b n -> package_modes_for_scri zero d a b = Err IndexError.
  Proof.
    intros A AB B C. destruct (complete_sized d a b n) as [S F]; [lia|exact C|]. destruct C as [(h & H & L) _]. unfold package_modes_for_scri.
    rewrite (proj2 (mget_ok d (2, 2)%Z h) H). cbn [bind]. cbv zeta. destruct (Z.ltb_spec ((b + 3) * (b - 1)) 0) as [N|N]; [nia|]. rewrite L. apply fill_small; auto.
    rewrite repeat_length. assert (X := mode_list_length a b). nia.
  Qed.
  Lemma package_two d : (forall h lm v, mode_of d (2, 2)%Z h -> in_range 2 2 lm -> mode_of d lm v -> length v = length h) ->
    package_modes_for_scri zero d 2 2 = package_ell2 (list K) d.
  Proof.
    intros S. unfold package_modes_for_scri, package_ell2. destruct (mget d (2, 2)%Z) as [h|e] eqn:H; [|reflexivity]. apply mget_ok in H. cbn [bind].
    change (mode_list 2 2) with ell2. change (Z.to_nat ((2 + 3) * (2 - 1))) with 5. change (((2 + 3) * (2 - 1) <? 0)%Z) with false. cbv zeta.
    assert (G : forall m, In m ell2 -> forall v, mode_of d m v -> as_column (length h) v = Ok v).
    { intros m M v V. apply as_column_same. apply (S h m); auto. apply (proj1 (mode_list_in 2 2 m ltac:(lia))). exact M. }
    cbn [fill ell2 pick_modes repeat].
    destruct (dlookup mode_eqb d (2, -2)%Z) as [v1|] eqn:E1; [rewrite (G (2, -2)%Z) by (auto; cbn; tauto)|reflexivity]. cbn [bind set_column].
    destruct (dlookup mode_eqb d (2, -1)%Z) as [v2|] eqn:E2; [rewrite (G (2, -1)%Z) by (auto; cbn; tauto)|reflexivity]. cbn [bind set_column].
    destruct (dlookup mode_eqb d (2, 0)%Z) as [v3|] eqn:E3; [rewrite (G (2, 0)%Z) by (auto; cbn; tauto)|reflexivity]. cbn [bind set_column].
    destruct (dlookup mode_eqb d (2, 1)%Z) as [v4|] eqn:E4; [rewrite (G (2, 1)%Z) by (auto; cbn; tauto)|reflexivity]. cbn [bind set_column].
    destruct (dlookup mode_eqb d (2, 2)%Z) as [v5|] eqn:E5; [rewrite (G (2, 2)%Z) by (auto; cbn; tauto)|reflexivity]. reflexivity.
  Qed.
End Packing.

(** ** junk *)
Lemma argmin_nearest l x i : argmin (map (fun p => Qabs (p - x)) l) = Ok i -> nearest l x i.
Proof.
  unfold argmin. intros H. apply argmax_ok in H. destruct H as (m & M & A & B). rewrite !nth_error_map in M. destruct (nth_error l i) as [a|] eqn:E; [|discriminate].
  cbn [option_map] in M. apply Some_inj in M. subst m. exists a. split; [exact E|]. split.
  - intros j b J. assert (X := A j (- Qabs (b - x))%Q). rewrite !nth_error_map, J in X. cbn [option_map] in X. specialize (X eq_refl). unfold distance. lra.
  - intros j b J1 J2. assert (X := B j (- Qabs (b - x))%Q J1). rewrite !nth_error_map, J2 in X. cbn [option_map] in X. specialize (X eq_refl). unfold distance. lra.
Qed.
Lemma argmin_total l x : l <> [] -> exists i, argmin (map (fun p => Qabs (p - x)) l) = Ok i.
Proof. destruct l as [|a l]; [congruence|]. intros _. cbn. eauto. Qed.
Lemma drop_lookup {K} i (d : mdict (list K)) lm : dlookup mode_eqb (map (fun kv => (fst kv, skipn i (snd kv))) d) lm = option_map (skipn i) (dlookup mode_eqb d lm).
Proof. induction d as [|[k v] d IH]; [reflexivity|]. cbn. destruct (mode_eqb lm k); [reflexivity|exact IH]. Qed.
Lemma drop_ok {K} i t (d : mdict (list K)) t' d' : drop_start i t d = (t', d') -> without_first i t d t' d'.
Proof.
  intros H. injection H as <- <-. split; [reflexivity|]. split; [rewrite map_map; reflexivity|]. intros lm v V. unfold mode_of in *. now rewrite drop_lookup, V.
Qed.
Section Junk.
  Context {K : Type} (phase : list K -> list Q).
  Lemma removed t (d : mdict (list K)) n t' d' : remove_junk phase t d n = Ok (t', d') ->
    exists h p0 i, mode_of d (2, 2)%Z h /\ nth_error (phase h) 0 = Some p0 /\ nearest (phase h) (p0 + n * 4 * np_pi) i /\ without_first i t d t' d'.
  Proof.
    unfold remove_junk. intros H. apply bind_ok in H. destruct H as (h & E & H). apply bind_ok in H. destruct H as (p0 & P & H). apply bind_ok in H. destruct H as (i & I & H).
    apply Ok_inj in H. apply mget_ok in E. apply get_ok in P. apply argmin_nearest in I. apply drop_ok in H. exists h, p0, i. auto.
  Qed.
  Lemma removed_total t (d : mdict (list K)) n h : mode_of d (2, 2)%Z h -> phase h <> [] -> exists r, remove_junk phase t d n = Ok r.
  Proof.
    intros E P. unfold remove_junk. rewrite (proj2 (mget_ok d (2, 2)%Z h) E). cbn [bind]. cbv zeta. destruct (phase h) as [|p0 ps]; [congruence|].
    cbn [get nth_error bind]. destruct (argmin_total (p0 :: ps) (p0 + n * 4 * np_pi)%Q) as [i I]; [discriminate|]. rewrite I. cbn [bind]. eauto.
  Qed.
  Lemma removed_horizons t (d : mdict (list K)) n time ph t' d' : remove_junk_horizons t d n time ph = Ok (t', d') ->
    exists p0 j a b i, nth_error ph 0 = Some p0 /\ nearest ph (p0 + n * 2 * np_pi) j /\ nth_error time j = Some a /\ nth_error time 0 = Some b /\
      nearest t (a - b) i /\ without_first i t d t' d'.
  Proof.
    unfold remove_junk_horizons, orbits_duration. intros H. apply bind_ok in H. destruct H as (du & D & H). apply bind_ok in D. destruct D as (p0 & P & D). apply bind_ok in D. destruct D as (j & J & D).
    apply bind_ok in D. destruct D as (a & A & D). apply bind_ok in D. destruct D as (b & B & D). apply Ok_inj in D. subst du. apply bind_ok in H. destruct H as (i & I & H). apply Ok_inj in H.
    apply get_ok in P, A, B. apply argmin_nearest in J, I. apply drop_ok in H. exists p0, j, a, b, i. auto 7.
  Qed.
End Junk.
Lemma increasing_lt l i j a b : increasing l -> i < j -> nth_error l i = Some a -> nth_error l j = Some b -> (a < b)%Q.
Proof. intros H I A B. eapply (H i j); eauto. Qed.
Lemma nearest_split l x i : increasing l -> nearest l x i -> forall j a, nth_error l j = Some a -> (j < i -> (a < x)%Q) /\ (i < j -> (x < a)%Q).
Proof.
  intros H (b & B & M & S) j a A. split; intros J.
  - assert (L := increasing_lt _ _ _ _ _ H J A B). assert (Y := S j a J A). unfold distance in Y. destruct (Qlt_le_dec a x) as [G|G]; [exact G|]. exfalso.
    rewrite (Qabs_pos (a - x)), (Qabs_pos (b - x)) in Y by lra. lra.
  - assert (L := increasing_lt _ _ _ _ _ H J B A). assert (Y := M j a A). unfold distance in Y. destruct (Qlt_le_dec x a) as [G|G]; [exact G|]. exfalso.
    rewrite (Qabs_neg (a - x)), (Qabs_neg (b - x)) in Y by lra. lra.
Qed.
Lemma nearest_start l x i a : increasing l -> nearest l x i -> nth_error l 0 = Some a -> (x <= a)%Q -> i = 0.
Proof.
  intros H N A X. destruct i as [|i]; [reflexivity|]. exfalso. destruct (nearest_split _ _ _ H N 0 a A) as [Y _]. assert (a < x)%Q by (apply Y; lia). lra.
Qed.
Lemma nearest_end l x i a : increasing l -> nearest l x i -> nth_error l (length l - 1) = Some a -> (a <= x)%Q -> i = length l - 1.
Proof.
  intros H N A X. assert (I : i < length l) by (destruct N as (b & B & _); apply nth_error_Some; congruence).
  destruct (Nat.eq_dec i (length l - 1)) as [E|E]; [exact E|]. exfalso. destruct (nearest_split _ _ _ H N _ a A) as [_ Y]. assert (x < a)%Q by (apply Y; lia). lra.
Qed.
