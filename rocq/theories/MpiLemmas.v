(** Lemmas about the distributed run. *)
From Verif Require Import Base BaseLemmas PostModel MpiModel MpiSpec.
From Coq Require Import Lia Permutation.
Open Scope list_scope.
Open Scope nat_scope.

Lemma upd_length {A} (x : A) l : forall k, length (upd k x l) = length l.
Proof. induction l as [|a l IH]; intros [|k]; cbn; auto. Qed.
Lemma nth_error_upd {A} (x : A) l : forall k j,
  nth_error (upd k x l) j = if Nat.eqb j k then match nth_error l j with Some _ => Some x | None => None end else nth_error l j.
Proof.
  induction l as [|a l IH]; intros [|k] [|j]; cbn; auto; try (destruct (Nat.eqb _ _); auto).
Qed.
Lemma upd_same {A} (x : A) l k : k < length l -> nth_error (upd k x l) k = Some x.
Proof.
  intros H. rewrite nth_error_upd, Nat.eqb_refl. destruct (nth_error l k) eqn:E; [reflexivity|].
  apply nth_error_None in E. lia.
Qed.
Lemma upd_other {A} (x : A) l k j : j <> k -> nth_error (upd k x l) j = nth_error l j.
Proof. intros H. rewrite nth_error_upd. apply Nat.eqb_neq in H. rewrite H. reflexivity. Qed.
Lemma upd_map {A B} (f : A -> B) x l : forall k, upd k (f x) (map f l) = map f (upd k x l).
Proof. induction l as [|a l IH]; intros [|k]; cbn; auto. rewrite IH. reflexivity. Qed.
Lemma flat_upd {A B} (f : A -> list B) (l : list A) : forall k a, nth_error l k = Some a ->
  exists rest, Permutation (flat_map f l) (f a ++ rest) /\ forall b, Permutation (flat_map f (upd k b l)) (f b ++ rest).
Proof.
  induction l as [|x l IH]; intros [|k] a H; cbn in H; try discriminate.
  - apply Some_inj in H. subst x. exists (flat_map f l). split; intros; apply Permutation_refl.
  - destruct (IH k a H) as (rest & P1 & P2). exists (f x ++ rest). cbn [flat_map upd]. split; intros.
    + rewrite P1. rewrite !app_assoc. apply Permutation_app_tail, Permutation_app_comm.
    + rewrite P2. rewrite !app_assoc. apply Permutation_app_tail, Permutation_app_comm.
Qed.
Lemma sum_upd {A} (f : A -> nat) (l : list A) : forall k a, nth_error l k = Some a ->
  forall b, list_sum (map f (upd k b l)) + f a = list_sum (map f l) + f b.
Proof.
  induction l as [|x l IH]; intros [|k] a H b; cbn in H; try discriminate.
  - apply Some_inj in H. subst x. cbn [upd map]. cbn. lia.
  - cbn [upd map]. specialize (IH k a H b). change (list_sum (f x :: ?y)) with (f x + list_sum y).
    cbn [list_sum fold_right] in *. unfold list_sum in *. cbn. lia.
Qed.
Lemma somes_in {A} (l : list (option A)) a : In a (somes l) <-> In (Some a) l.
Proof.
  induction l as [|[x|] l IH]; cbn; [tauto| |].
  - rewrite IH. split; intros [H|H]; auto. + left. congruence. + left. congruence.
  - rewrite IH. split; [auto|]. intros [H|H]; [discriminate|auto].
Qed.
Lemma upd_in {A} (x : A) l : forall k y, In y (upd k x l) -> y = x \/ In y l.
Proof.
  induction l as [|a l IH]; intros [|k] y H; cbn in *; auto.
  - destruct H as [H|H]; auto.
  - destruct H as [H|H]; auto. destruct (IH k y H); auto.
Qed.
Lemma firstn_slice {A} (l : list A) a b : a <= b -> firstn b l = firstn a l ++ slice l a b.
Proof.
  intros H. unfold slice. rewrite <- (firstn_skipn a (firstn b l)) at 1. rewrite firstn_firstn, Nat.min_l by lia.
  rewrite firstn_skipn_comm. replace (a + (b - a)) with b by lia. reflexivity.
Qed.
Lemma zslice_nat {A} (l : list A) a b : zslice l (Z.of_nat a) (Z.of_nat b) = slice l a b.
Proof.
  unfold zslice, norm_bound. destruct (Z.leb_spec 0 (Z.of_nat a)); [|lia]. destruct (Z.leb_spec 0 (Z.of_nat b)); [|lia].
  rewrite !Nat2Z.id. reflexivity.
Qed.
Lemma slice_map {A B} (f : A -> B) l a b : slice (map f l) a b = map f (slice l a b).
Proof. unfold slice. rewrite <- firstn_map, <- skipn_map. reflexivity. Qed.

Section Positions.
  Context {P : Type}.
  Implicit Type rows : list (Z * P).
  Lemma pos_from_spec rows : forall i k j, pos_from i k rows = Some j ->
    k <= j /\ exists p, nth_error rows (j - k) = Some (i, p).
  Proof.
    induction rows as [|[a q] rows IH]; intros i k j H; cbn in H; [discriminate|].
    destruct (pos_from i (S k) rows) as [m|] eqn:E.
    - apply Some_inj in H. subst m. destruct (IH _ _ _ E) as (H1 & p & H2). split; [lia|]. exists p.
      replace (j - k) with (S (j - S k)) by lia. exact H2.
    - destruct (Z.eqb_spec a i); [|discriminate]. apply Some_inj in H. subst. split; [lia|]. exists q. rewrite Nat.sub_diag. reflexivity.
  Qed.
  Lemma pos_of_spec rows i j : pos_of rows i = Some j -> exists p, nth_error rows j = Some (i, p).
  Proof. intros H. destruct (pos_from_spec _ _ _ _ H) as (_ & p & E). rewrite Nat.sub_0_r in E. eauto. Qed.
  Lemma pos_from_none rows : forall i k, pos_from i k rows = None -> ~ In i (map fst rows).
  Proof.
    induction rows as [|[a q] rows IH]; intros i k H; cbn in *; [auto|].
    destruct (pos_from i (S k) rows) eqn:E; [discriminate|]. destruct (Z.eqb_spec a i); [discriminate|].
    intros [X|X]; [auto|]. exact (IH _ _ E X).
  Qed.
  Lemma pos_of_in rows i p : In (i, p) rows -> exists j, pos_of rows i = Some j.
  Proof.
    intros H. unfold pos_of. destruct (pos_from i 0 rows) as [j|] eqn:E; [eauto|].
    exfalso. apply (pos_from_none _ _ _ E). apply (in_map fst) in H. exact H.
  Qed.
  Lemma pos_of_nodup rows i p j : NoDup (map fst rows) -> nth_error rows j = Some (i, p) -> pos_of rows i = Some j.
  Proof.
    intros N H. destruct (pos_of_in rows i p (nth_error_In _ _ H)) as (k & E). rewrite E. f_equal.
    destruct (pos_of_spec _ _ _ E) as (q & E').
    apply (map_nth_error fst) in H. apply (map_nth_error fst) in E'. cbn in *.
    apply (proj1 (NoDup_nth_error (map fst rows)) N k j); [|congruence]. apply nth_error_Some. rewrite E'. discriminate.
  Qed.
End Positions.

Section Todo.
  Context {P V : Type}.
  Implicit Type rows : list (Z * P).
  (** to_process keeps the positions of the pending samples. *)
  Lemma numbered rows : forall k, map (fun x : nat * Z * P => (snd (fst x), snd x))
     (map (fun x : nat * (Z * P) => (fst x, fst (snd x), snd (snd x))) (combine (seq k (length rows)) rows)) = rows.
  Proof. induction rows as [|[i p] rows IH]; intros k; cbn; [auto|]. rewrite IH. reflexivity. Qed.
  Lemma filter_map {A B} (f : A -> B) q (l : list A) : map f (filter (fun x => q (f x)) l) = filter q (map f l).
  Proof. induction l as [|a l IH]; cbn; [auto|]. destruct (q (f a)); cbn; rewrite IH; reflexivity. Qed.
  Lemma extract_todo rows (ck : option (list (presult V))) :
    extract (to_process rows ck) = filter (fun x => negb (existsb (Z.eqb (fst x)) (processed ck))) rows.
  Proof.
    unfold extract, to_process.
    rewrite (filter_map (fun x : nat * Z * P => (snd (fst x), snd x)) (fun x => negb (existsb (Z.eqb (fst x)) (processed ck)))).
    rewrite numbered. reflexivity.
  Qed.
  Lemma todo_pos rows (ck : option (list (presult V))) k i p : In (k, i, p) (to_process rows ck) ->
    nth_error rows k = Some (i, p) /\ ~ In i (processed ck).
  Proof.
    unfold to_process. rewrite filter_In, in_map_iff. intros (((k' & i' & p') & E & H) & N). cbn in *. injection E as <- <- <-.
    split.
    - assert (G : forall m rs, In (k', (i', p')) (combine (seq m (length rs)) rs) -> m <= k' /\ nth_error rs (k' - m) = Some (i', p')).
      { intros m rs. revert m. induction rs as [|r rs IH]; intros m; cbn; [tauto|]. intros [X|X].
        - injection X as <- <-. split; [lia|]. rewrite Nat.sub_diag. reflexivity.
        - destruct (IH _ X) as (H1 & H2). split; [lia|]. replace (k' - m) with (S (k' - S m)) by lia. exact H2. }
      destruct (G 0 rows H) as (_ & G'). rewrite Nat.sub_0_r in G'. exact G'.
    - intros X. apply negb_true_iff in N.
      assert (Y : existsb (Z.eqb i') (processed ck) = true) by (apply existsb_exists; exists i'; split; [exact X|apply Z.eqb_refl]).
      congruence.
  Qed.
  Lemma todo_file (c : config P) (f : file V) : extract (todo_of c f) = match f with Corrupt => [] | _ => pending c f end.
  Proof.
    unfold todo_of, pending, file_rows. destruct f; cbn [load_checkpoint]; try rewrite extract_todo; reflexivity.
  Qed.
  Lemma pending_in (c : config P) (f : file V) i p :
    In (i, p) (pending c f) <-> In (i, p) (k_rows c) /\ ~ In i (map pr_index (file_rows f)).
  Proof.
    unfold pending. rewrite filter_In. cbn. rewrite negb_true_iff. split; intros (A & B); split; auto.
    - intros C. assert (existsb (Z.eqb i) (map pr_index (file_rows f)) = true); [|congruence].
      apply existsb_exists. exists i. split; [auto|apply Z.eqb_refl].
    - destruct (existsb _ _) eqn:E; [|reflexivity]. exfalso. apply existsb_exists in E. destruct E as (j & J & X).
      apply Z.eqb_eq in X. subst. auto.
  Qed.
End Todo.
