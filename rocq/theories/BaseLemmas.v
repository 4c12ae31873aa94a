(** Facts about the shared primitives. *)
From Coq Require Export Lia Lqa Permutation Sorted.
From Verif Require Import Base.
Open Scope nat_scope.

(** ** result type *)
Lemma bind_ok {A B} (m : res A) (f : A -> res B) b :
  bind m f = Ok b -> exists a, m = Ok a /\ f a = Ok b.
Proof. destruct m as [a|e]; cbn; intros H; [exists a; auto|discriminate]. Qed.

Lemma bind_err {A B} (m : res A) (f : A -> res B) e :
  bind m f = Err e -> m = Err e \/ exists a, m = Ok a /\ f a = Err e.
Proof. destruct m as [a|e']; cbn; intros H; [right; exists a; auto|left; congruence]. Qed.

Lemma Ok_inj {A} (a b : A) : Ok a = Ok b -> a = b.
Proof. congruence. Qed.

Lemma Some_inj {A} (a b : A) : Some a = Some b -> a = b.
Proof. congruence. Qed.

Ltac inv_bind H :=
  let a := fresh "v" in let E := fresh "E" in
  apply bind_ok in H; destruct H as [a [E H]].

(** ** comparisons *)
Lemma Qlt_bool_iff x y : Qlt_bool x y = true <-> (x < y)%Q.
Proof.
  unfold Qlt_bool. rewrite negb_true_iff. split.
  - intros H. destruct (Qlt_le_dec x y) as [L|L]; [exact L|].
    apply Qle_bool_iff in L. congruence.
  - intros H. destruct (Qle_bool y x) eqn:E; [|reflexivity].
    apply Qle_bool_iff in E. lra.
Qed.
Lemma Qlt_bool_false x y : Qlt_bool x y = false <-> (y <= x)%Q.
Proof.
  unfold Qlt_bool. rewrite negb_false_iff. apply Qle_bool_iff.
Qed.
Lemma Qle_bool_false x y : Qle_bool x y = false <-> (y < x)%Q.
Proof.
  split.
  - intros H. destruct (Qlt_le_dec y x) as [L|L]; [exact L|].
    apply Qle_bool_iff in L. congruence.
  - intros H. destruct (Qle_bool x y) eqn:E; [|reflexivity].
    apply Qle_bool_iff in E. lra.
Qed.
Lemma Qeq_bool_false x y : Qeq_bool x y = false <-> ~ (x == y)%Q.
Proof.
  split.
  - apply Qeq_bool_neq.
  - intros H. destruct (Qeq_bool x y) eqn:E; [|reflexivity].
    apply Qeq_bool_iff in E. contradiction.
Qed.

Global Instance Qlt_bool_comp : Proper (Qeq ==> Qeq ==> eq) Qlt_bool.
Proof.
  intros x x' Hx y y' Hy. destruct (Qlt_bool x y) eqn:E; symmetry.
  - apply Qlt_bool_iff in E. apply Qlt_bool_iff. lra.
  - apply Qlt_bool_false in E. apply Qlt_bool_false. lra.
Qed.
Global Instance Qle_bool_comp' : Proper (Qeq ==> Qeq ==> eq) Qle_bool.
Proof.
  intros x x' Hx y y' Hy. destruct (Qle_bool x y) eqn:E; symmetry.
  - apply Qle_bool_iff in E. apply Qle_bool_iff. lra.
  - apply Qle_bool_false in E. apply Qle_bool_false. lra.
Qed.

(** ** indexing *)
Lemma get_ok {A} (l : list A) i a : get l i = Ok a <-> nth_error l i = Some a.
Proof. unfold get. destruct (nth_error l i); split; congruence. Qed.
Lemma get_in_range {A} (l : list A) i : i < length l -> exists a, get l i = Ok a.
Proof.
  intros H. unfold get. destruct (nth_error l i) as [a|] eqn:E; [eauto|].
  apply nth_error_None in E. lia.
Qed.
Lemma get_range {A} (l : list A) i a : get l i = Ok a -> i < length l.
Proof. rewrite get_ok. intros H. apply nth_error_Some. congruence. Qed.
Lemma get_err {A} (l : list A) i e : get l i = Err e -> e = IndexError /\ length l <= i.
Proof.
  unfold get. destruct (nth_error l i) eqn:E; intros H; [discriminate|].
  apply nth_error_None in E. split; [congruence|exact E].
Qed.
Lemma last_of_app {A} (l : list A) a : last_of (l ++ [a]) = Ok a.
Proof.
  unfold last_of, zget. rewrite app_length. cbn [length].
  change (0 <=? -1)%Z with false. cbv iota.
  replace (Z.of_nat (length l + 1) + -1)%Z with (Z.of_nat (length l)) by lia.
  replace (0 <=? Z.of_nat (length l))%Z with true by (symmetry; apply Z.leb_le; lia).
  rewrite Nat2Z.id. apply get_ok. rewrite nth_error_app2 by lia.
  now rewrite Nat.sub_diag.
Qed.
Lemma list_last_decomp {A} (l : list A) : l <> [] -> exists l' a, l = l' ++ [a].
Proof. intros H. destruct (exists_last H) as [l' [a E]]. eauto. Qed.
Lemma last_of_nonempty {A} (l : list A) : l <> [] -> exists a, last_of l = Ok a.
Proof. intros H. destruct (list_last_decomp l H) as [l' [a ->]]. exists a. apply last_of_app. Qed.
Lemma last_of_inv {A} (l : list A) a : last_of l = Ok a -> exists l', l = l' ++ [a].
Proof.
  intros H. destruct l as [|x r].
  - discriminate.
  - destruct (list_last_decomp (x :: r)) as [l' [b E]]; [discriminate|].
    rewrite E in *. rewrite last_of_app in H. injection H as <-. eauto.
Qed.
Lemma last_of_nth {A} (l : list A) a :
  last_of l = Ok a -> nth_error l (length l - 1) = Some a /\ l <> [].
Proof.
  intros H. destruct (last_of_inv _ _ H) as [l' ->].
  rewrite app_length. cbn. replace (length l' + 1 - 1) with (length l') by lia.
  rewrite nth_error_app2 by lia. rewrite Nat.sub_diag. split; [reflexivity|].
  destruct l'; discriminate.
Qed.

(** ** slices *)
Lemma slice_length {A} (l : list A) a b : length (slice l a b) = Nat.min (b - a) (length l - a).
Proof. unfold slice. rewrite firstn_length, skipn_length. reflexivity. Qed.
Lemma nth_error_firstn {A} (l : list A) n i :
  nth_error (firstn n l) i = if i <? n then nth_error l i else None.
Proof.
  revert l i. induction n as [|n IH]; intros l i; cbn [firstn].
  - destruct i; reflexivity.
  - destruct l as [|a l]; destruct i as [|i]; cbn [nth_error]; try reflexivity.
    + now destruct (S i <? S n).
    + rewrite IH. reflexivity.
Qed.
Lemma nth_error_skipn {A} (l : list A) n i : nth_error (skipn n l) i = nth_error l (n + i).
Proof.
  revert l. induction n as [|n IH]; intros l; cbn [skipn]; [reflexivity|].
  destruct l as [|a l]; cbn [plus nth_error].
  - destruct i; reflexivity.
  - apply IH.
Qed.
Lemma nth_error_slice {A} (l : list A) a b i :
  nth_error (slice l a b) i = if i <? b - a then nth_error l (a + i) else None.
Proof. unfold slice. rewrite nth_error_firstn, nth_error_skipn. reflexivity. Qed.
Lemma nth_error_map2 {A B C} (f : A -> B -> C) a b i :
  nth_error (map2 f a b) i =
  match nth_error a i, nth_error b i with Some x, Some y => Some (f x y) | _, _ => None end.
Proof.
  revert b i. induction a as [|x a IH]; intros b i.
  - destruct i; reflexivity.
  - destruct b as [|y b].
    + cbn [map2]. destruct i as [|i]; cbn [nth_error]; [reflexivity|].
      destruct (nth_error a i); reflexivity.
    + destruct i as [|i]; cbn [map2 nth_error]; [reflexivity|apply IH].
Qed.
Lemma map2_length {A B C} (f : A -> B -> C) a b :
  length (map2 f a b) = Nat.min (length a) (length b).
Proof. revert b; induction a as [|x a IH]; intros [|y b]; cbn; auto. Qed.

(** ** where / find *)
Lemma where_from_in {A} (p : A -> bool) l : forall i j,
  In j (where_from p i l) <-> exists a, i <= j /\ nth_error l (j - i) = Some a /\ p a = true.
Proof.
  induction l as [|x l IH]; intros i j; cbn [where_from].
  - split; [intros []|]. intros [a [_ [H _]]]. destruct (j - i); discriminate.
  - assert (S1 : In j (where_from p (S i) l) <->
                 exists a, S i <= j /\ nth_error (x :: l) (j - i) = Some a /\ p a = true).
    { rewrite IH. split; intros [a [H1 [H2 H3]]]; exists a; split; auto; split; auto.
      - replace (j - i) with (S (j - S i)) by lia. exact H2.
      - replace (j - i) with (S (j - S i)) in H2 by lia. exact H2. }
    destruct (p x) eqn:E; cbn [In]; rewrite S1.
    + split.
      * intros [->|[a [H1 H2]]].
        -- exists x. rewrite Nat.sub_diag. auto.
        -- exists a. split; [lia|auto].
      * intros [a [H1 [H2 H3]]]. destruct (Nat.eq_dec i j) as [->|N]; [left; auto|].
        right. exists a. split; [lia|auto].
    + split.
      * intros [a [H1 H2]]. exists a. split; [lia|auto].
      * intros [a [H1 [H2 H3]]]. exists a. split; auto.
        destruct (Nat.eq_dec i j) as [->|N]; [|lia].
        rewrite Nat.sub_diag in H2. cbn in H2. congruence.
Qed.
Lemma where_idx_in {A} (p : A -> bool) l j :
  In j (where_idx p l) <-> exists a, nth_error l j = Some a /\ p a = true.
Proof.
  unfold where_idx. rewrite where_from_in. rewrite Nat.sub_0_r.
  split; intros [a H]; exists a; [tauto|split; [lia|tauto]].
Qed.
Lemma where_from_sorted {A} (p : A -> bool) l : forall i,
  StronglySorted lt (where_from p i l) /\ Forall (fun j => i <= j) (where_from p i l).
Proof.
  induction l as [|x l IH]; intros i; cbn [where_from].
  - split; constructor.
  - destruct (IH (S i)) as [H1 H2].
    assert (H3 : Forall (fun j => i <= j) (where_from p (S i) l)).
    { eapply Forall_impl; [|exact H2]. cbn. lia. }
    destruct (p x); split; auto.
    constructor; auto.
Qed.
Lemma where_idx_sorted {A} (p : A -> bool) l : StronglySorted lt (where_idx p l).
Proof. apply where_from_sorted. Qed.
Lemma find_from_spec {A} (p : A -> bool) l : forall i,
  match find_from p i l with
  | Some j => i <= j /\ (exists a, nth_error l (j - i) = Some a /\ p a = true) /\
              (forall k a, k < j - i -> nth_error l k = Some a -> p a = false)
  | None => forall k a, nth_error l k = Some a -> p a = false
  end.
Proof.
  induction l as [|x l IH]; intros i; cbn [find_from].
  - intros k a H. destruct k; discriminate.
  - destruct (p x) eqn:E.
    + rewrite Nat.sub_diag. split; [lia|]. split; [exists x; auto|]. intros; lia.
    + specialize (IH (S i)). destruct (find_from p (S i) l) as [j|].
      * destruct IH as [H1 [[a [H2 H3]] H4]]. split; [lia|]. split.
        -- exists a. replace (j - i) with (S (j - S i)) by lia. auto.
        -- intros k b Hk Hb. destruct k as [|k]; cbn in Hb; [congruence|].
           apply (H4 k); [lia|exact Hb].
      * intros k a Hk. destruct k as [|k]; cbn in Hk; [congruence|]. eauto.
Qed.
Lemma find_index_some {A} (p : A -> bool) l j :
  find_index p l = Some j ->
  (exists a, nth_error l j = Some a /\ p a = true) /\
  (forall k a, k < j -> nth_error l k = Some a -> p a = false).
Proof.
  intros H. generalize (find_from_spec p l 0). unfold find_index in H. rewrite H.
  rewrite Nat.sub_0_r. tauto.
Qed.
Lemma find_index_none {A} (p : A -> bool) l :
  find_index p l = None -> forall k a, nth_error l k = Some a -> p a = false.
Proof. intros H. generalize (find_from_spec p l 0). unfold find_index in H. now rewrite H. Qed.

(** ** diff *)
Lemma qdiff_length l : length (qdiff l) = length l - 1.
Proof.
  induction l as [|a l IH]; [reflexivity|]. destruct l as [|b l]; [reflexivity|].
  cbn [qdiff length] in *. rewrite IH. lia.
Qed.
Lemma qdiff_nth l : forall i d, nth_error (qdiff l) i = Some d <->
  exists a b, nth_error l i = Some a /\ nth_error l (S i) = Some b /\ d = (b - a)%Q.
Proof.
  induction l as [|a l IH]; intros i d.
  - split; [destruct i; discriminate|]. intros [x [y [H _]]]. destruct i; discriminate.
  - destruct l as [|b l].
    + split; [destruct i; discriminate|]. intros [x [y [_ [H _]]]]. destruct i; discriminate.
    + change (qdiff (a :: b :: l)) with ((b - a)%Q :: qdiff (b :: l)).
      destruct i as [|i].
      * cbn. split.
        -- intros H. injection H as <-. exists a, b. auto.
        -- intros [x [y [H1 [H2 H3]]]]. congruence.
      * change (nth_error ((b - a)%Q :: qdiff (b :: l)) (S i)) with (nth_error (qdiff (b :: l)) i).
        rewrite IH. reflexivity.
Qed.

(** ** min / max *)
Lemma Qmaxb_spec x y : (x <= Qmaxb x y)%Q /\ (y <= Qmaxb x y)%Q /\ (Qmaxb x y = x \/ Qmaxb x y = y).
Proof.
  unfold Qmaxb. destruct (Qle_bool x y) eqn:E.
  - apply Qle_bool_iff in E. repeat split; auto; lra.
  - apply Qle_bool_false in E. repeat split; auto; lra.
Qed.
Lemma Qminb_spec x y : (Qminb x y <= x)%Q /\ (Qminb x y <= y)%Q /\ (Qminb x y = x \/ Qminb x y = y).
Proof.
  unfold Qminb. destruct (Qle_bool x y) eqn:E.
  - apply Qle_bool_iff in E. repeat split; auto; lra.
  - apply Qle_bool_false in E. repeat split; auto; lra.
Qed.
Lemma qmin_from_spec l : forall m,
  (qmin_from m l <= m)%Q /\ Forall (fun a => qmin_from m l <= a)%Q l /\
  In (qmin_from m l) (m :: l).
Proof.
  induction l as [|a l IH]; intros m; cbn [qmin_from].
  - repeat split; [lra|constructor|left; auto].
  - destruct (IH (Qminb m a)) as [H1 [H2 H3]].
    destruct (Qminb_spec m a) as [K1 [K2 K3]].
    repeat split.
    + lra.
    + constructor; [lra|exact H2].
    + destruct H3 as [H3|H3].
      * rewrite <- H3. destruct K3 as [K3|K3]; rewrite K3; [left|right; left]; reflexivity.
      * right; right; exact H3.
Qed.
Lemma qmax_from_spec l : forall m,
  (m <= qmax_from m l)%Q /\ Forall (fun a => a <= qmax_from m l)%Q l /\
  In (qmax_from m l) (m :: l).
Proof.
  induction l as [|a l IH]; intros m; cbn [qmax_from].
  - repeat split; [lra|constructor|left; auto].
  - destruct (IH (Qmaxb m a)) as [H1 [H2 H3]].
    destruct (Qmaxb_spec m a) as [K1 [K2 K3]].
    repeat split.
    + lra.
    + constructor; [lra|exact H2].
    + destruct H3 as [H3|H3].
      * rewrite <- H3. destruct K3 as [K3|K3]; rewrite K3; [left|right; left]; reflexivity.
      * right; right; exact H3.
Qed.
Lemma qmin_ok l m : qmin l = Ok m -> In m l /\ forall a, In a l -> (m <= a)%Q.
Proof.
  destruct l as [|a l]; cbn; intros H; [discriminate|]. injection H as <-.
  destruct (qmin_from_spec l a) as [H1 [H2 H3]]. split; [exact H3|].
  intros b [<-|Hb]; [exact H1|]. rewrite Forall_forall in H2. auto.
Qed.
Lemma qmax_ok l m : qmax l = Ok m -> In m l /\ forall a, In a l -> (a <= m)%Q.
Proof.
  destruct l as [|a l]; cbn; intros H; [discriminate|]. injection H as <-.
  destruct (qmax_from_spec l a) as [H1 [H2 H3]]. split; [exact H3|].
  intros b [<-|Hb]; [exact H1|]. rewrite Forall_forall in H2. auto.
Qed.

(** ** argmax *)
Lemma argmax_from_bound l : forall best bi i, bi < i -> argmax_from best bi i l < i + length l.
Proof.
  induction l as [|a l IH]; intros best bi i H; cbn [argmax_from length]; [lia|].
  destruct (Qlt_bool best a); [specialize (IH a i (S i))|specialize (IH best bi (S i))]; lia.
Qed.
Lemma argmax_bound l i : argmax l = Ok i -> i < length l.
Proof.
  destruct l as [|a l]; cbn; intros H; [discriminate|]. injection H as <-.
  generalize (argmax_from_bound l a 0 1). lia.
Qed.
Lemma argmax_from_spec l : forall (pre : list Q) best bi,
  nth_error pre bi = Some best ->
  (forall k a, nth_error pre k = Some a -> (a <= best)%Q) ->
  (forall k a, k < bi -> nth_error pre k = Some a -> (a < best)%Q) ->
  exists m, nth_error (pre ++ l) (argmax_from best bi (length pre) l) = Some m /\
    (forall k a, nth_error (pre ++ l) k = Some a -> (a <= m)%Q) /\
    (forall k a, k < argmax_from best bi (length pre) l ->
                 nth_error (pre ++ l) k = Some a -> (a < m)%Q).
Proof.
  induction l as [|x l IH]; intros pre best bi H1 H2 H3; cbn [argmax_from].
  - rewrite app_nil_r. exists best. auto.
  - assert (EL : pre ++ x :: l = (pre ++ [x]) ++ l) by (rewrite <- app_assoc; reflexivity).
    rewrite EL. replace (S (length pre)) with (length (pre ++ [x])) by (rewrite app_length; cbn; lia).
    assert (P : forall k a, nth_error (pre ++ [x]) k = Some a ->
                (nth_error pre k = Some a) \/ (k = length pre /\ a = x)).
    { intros k a Hk. destruct (Nat.lt_ge_cases k (length pre)) as [L|L].
      - rewrite nth_error_app1 in Hk by exact L. auto.
      - rewrite nth_error_app2 in Hk by exact L. right.
        destruct (k - length pre) as [|j] eqn:E; cbn in Hk; [|destruct j; discriminate].
        split; [lia|congruence]. }
    destruct (Qlt_bool best x) eqn:E.
    + apply Qlt_bool_iff in E. apply IH.
      * rewrite nth_error_app2 by lia. now rewrite Nat.sub_diag.
      * intros k a Hk. destruct (P k a Hk) as [Hk'|[-> ->]]; [|lra].
        specialize (H2 k a Hk'). lra.
      * intros k a Lk Hk. destruct (P k a Hk) as [Hk'|[-> ->]]; [|lia].
        specialize (H2 k a Hk'). lra.
    + apply Qlt_bool_false in E. apply IH.
      * rewrite nth_error_app1; [exact H1|apply nth_error_Some; congruence].
      * intros k a Hk. destruct (P k a Hk) as [Hk'|[-> ->]]; eauto.
      * intros k a Lk Hk. destruct (P k a Hk) as [Hk'|[-> ->]]; eauto.
        assert (bi < length pre) by (apply nth_error_Some; congruence). lia.
Qed.
Lemma argmax_ok l i : argmax l = Ok i ->
  exists m, nth_error l i = Some m /\ (forall k a, nth_error l k = Some a -> (a <= m)%Q) /\
    (forall k a, k < i -> nth_error l k = Some a -> (a < m)%Q).
Proof.
  destruct l as [|a l]; cbn; intros H; [discriminate|]. injection H as <-.
  apply (argmax_from_spec l [a] a 0); [reflexivity| |intros; lia].
  intros k b Hk. destruct k as [|[|k]]; cbn in Hk; try discriminate.
  injection Hk as <-. lra.
Qed.

(** ** gather *)
Lemma gather_length {A} (l : list A) idx r : gather l idx = Ok r -> length r = length idx.
Proof.
  revert r. induction idx as [|i idx IH]; cbn; intros r H.
  - injection H as <-. reflexivity.
  - inv_bind H. inv_bind H. injection H as <-. cbn. f_equal. auto.
Qed.
Lemma gather_nth {A} (l : list A) idx : forall r, gather l idx = Ok r ->
  forall k a, nth_error r k = Some a <-> exists i, nth_error idx k = Some i /\ nth_error l i = Some a.
Proof.
  induction idx as [|i idx IH]; cbn; intros r H k a.
  - injection H as <-. split; [destruct k; discriminate|]. intros [j [Hj _]]. destruct k; discriminate.
  - inv_bind H. inv_bind H. injection H as <-. apply get_ok in E.
    destruct k as [|k]; cbn.
    + split; [intros H; exists i; split; congruence|]. intros [j [H1 H2]]. congruence.
    + apply IH. exact E0.
Qed.
Lemma gather_total {A} (l : list A) idx :
  Forall (fun i => i < length l) idx -> exists r, gather l idx = Ok r.
Proof.
  induction 1 as [|i idx H _ [r Hr]]; cbn; [eauto|].
  destruct (get_in_range l i H) as [a Ha]. rewrite Ha, Hr. cbn. eauto.
Qed.
Lemma gather_inv {A} (l : list A) idx r :
  gather l idx = Ok r -> Forall (fun i => i < length l) idx.
Proof.
  revert r. induction idx as [|i idx IH]; cbn; intros r H; [constructor|].
  inv_bind H. inv_bind H. constructor; [eapply get_range; eauto|eauto].
Qed.

(** ** sortedness helpers *)
Lemma SSorted_nth (l : list nat) : StronglySorted lt l ->
  forall i j a b, i < j -> nth_error l i = Some a -> nth_error l j = Some b -> a < b.
Proof.
  induction 1 as [|x l Hs IH Hf]; intros i j a b Hij Ha Hb.
  - destruct i; discriminate.
  - destruct j as [|j]; [lia|]. destruct i as [|i]; cbn in *.
    + injection Ha as ->. rewrite Forall_forall in Hf. apply Hf. eapply nth_error_In; eauto.
    + eapply IH; [|eauto|eauto]; lia.
Qed.

(** ** dictionaries with string keys *)
Lemma slookup_in {V} (d : sdict V) k v : slookup d k = Some v -> In (k, v) d.
Proof.
  unfold slookup. induction d as [|[k' v'] d IH]; cbn; [discriminate|].
  destruct (String.eqb_spec k k') as [->|N]; intros H; [left; congruence|right; auto].
Qed.
Lemma slookup_none {V} (d : sdict V) k : slookup d k = None <-> ~ In k (dkeys d).
Proof.
  unfold slookup, dkeys. induction d as [|[k' v'] d IH]; cbn; [tauto|].
  destruct (String.eqb_spec k k') as [->|N].
  - split; [discriminate|]. intros H. exfalso. apply H. auto.
  - rewrite IH. split; [intros H [E|E]; auto|tauto].
Qed.
Lemma slookup_nodup {V} (d : sdict V) k v : NoDup (dkeys d) -> In (k, v) d -> slookup d k = Some v.
Proof.
  unfold slookup, dkeys. induction d as [|[k' v'] d IH]; cbn; [tauto|].
  intros HN [E|E]; inversion HN as [|? ? H1 H2]; subst.
  - injection E as -> ->. now rewrite String.eqb_refl.
  - destruct (String.eqb_spec k k') as [->|N]; [|auto].
    exfalso. apply H1. apply in_map_iff. exists (k', v). auto.
Qed.
Lemma smem_in {V} (d : sdict V) k : smem d k = true <-> In k (dkeys d).
Proof.
  unfold smem, dmem. fold (slookup d k).
  destruct (slookup d k) eqn:E.
  - split; auto. intros _. apply slookup_in in E. apply in_map_iff. exists (k, v). auto.
  - apply slookup_none in E. split; [discriminate|tauto].
Qed.
Lemma smem_false {V} (d : sdict V) k : smem d k = false <-> ~ In k (dkeys d).
Proof. rewrite <- smem_in. destruct (smem d k); split; congruence. Qed.
Lemma slookup_sset {V} (d : sdict V) k v k' :
  slookup (sset d k v) k' = if String.eqb k' k then Some v else slookup d k'.
Proof.
  unfold slookup, sset. induction d as [|[k0 v0] d IH]; cbn [dset dlookup].
  - reflexivity.
  - destruct (String.eqb_spec k k0) as [->|N]; cbn [dlookup].
    + destruct (String.eqb_spec k' k0); reflexivity.
    + rewrite IH. destruct (String.eqb_spec k' k0) as [->|N']; [|reflexivity].
      destruct (String.eqb_spec k0 k); [congruence|reflexivity].
Qed.
Lemma sset_fresh {V} (d : sdict V) k v : ~ In k (dkeys d) -> sset d k v = d ++ [(k, v)].
Proof.
  unfold sset, dkeys. induction d as [|[k' v'] d IH]; cbn; [reflexivity|].
  intros H. destruct (String.eqb_spec k k') as [->|N].
  - exfalso. apply H. auto.
  - rewrite IH by tauto. reflexivity.
Qed.
Lemma list_ext {A} : forall (l m : list A), (forall i, nth_error l i = nth_error m i) -> l = m.
Proof.
  induction l as [|a l IH]; intros [|b m] H; [reflexivity|discriminate (H 0)|discriminate (H 0)|].
  pose proof (H 0) as H0. cbn in H0. injection H0 as <-. f_equal. apply IH. intros i. apply (H (S i)).
Qed.
