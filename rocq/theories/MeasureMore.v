(** More proofs about a whole measurement: which extrema and which average are used, and which warnings are issued. *)
From Coq Require Import Permutation.
From Verif Require Import Base BaseLemmas UtilsModel UtilsSpec UtilsLemmas ExtremaModel ExtremaSpec ExtremaLemmas
  RationalModel MeasureModel MeasureSpec LevelLemmas AverageLemmas MeasureLemmas MeasureResults.
Open Scope nat_scope.

(** ** computations with their warnings *)
Lemma abind_ok {A B} (m : act A) (k : A -> act B) s w s2 b : abind m k s = (w, (s2, Ok b)) ->
  exists a s1 w1 w2, m s = (w1, (s1, Ok a)) /\ k a s1 = (w2, (s2, Ok b)) /\ w = w1 ++ w2.
Proof.
  unfold abind. destruct (m s) as [w1 [s1 [a|e]]]; [|discriminate]. destruct (k a s1) as [w2 y] eqn:E.
  intros H. injection H as <- ->. exists a, s1, w1, w2. auto.
Qed.
Tactic Notation "wstep" hyp(H) "as" ident(v) ident(st) ident(w) ident(E) :=
  let w2 := fresh "w2" in let X := fresh "X" in
  apply abind_ok in H; destruct H as (v & st & w & w2 & E & H & X); match type of X with ?l = _ => subst l end.
Definition says {A} (T : list string) (m : act A) : Prop := forall s x, In x (fst (m s)) -> In x T.
Definition lsays {A} (T : list string) (m : lg A) : Prop := forall x, In x (fst m) -> In x T.
Lemma says_bind {A B} T (m : act A) (k : A -> act B) : says T m -> (forall a, says T (k a)) -> says T (abind m k).
Proof.
  intros Hm Hk s x. unfold abind. specialize (Hm s). destruct (m s) as [w [s1 [a|e]]]; cbn in *; [|auto].
  specialize (Hk a s1). destruct (k a s1) as [w2 y]. cbn in *. rewrite in_app_iff. intros [I|I]; eauto.
Qed.
Lemma says_lift {A} T (r : res A) : says T (alift r). Proof. intros s x []. Qed.
Lemma says_ret {A} T (r : A) : says T (aret r). Proof. intros s x []. Qed.
Lemma says_read {A} T (r : state -> A) : says T (aread r). Proof. intros s x []. Qed.
Lemma says_mod T f : says T (amod f). Proof. intros s x []. Qed.
Lemma says_log {A} T (x : lg A) : lsays T x -> says T (alog x). Proof. intros H s. exact H. Qed.
Lemma lsays_bind {A B} T (m : lg A) (k : A -> lg B) : lsays T m -> (forall a, lsays T (k a)) -> lsays T (lbind m k).
Proof.
  intros Hm Hk x. unfold lbind. destruct (snd m) as [a|e]; cbn; [|apply Hm].
  rewrite in_app_iff. intros [I|I]; [apply Hm; auto|eapply Hk; eauto].
Qed.
Lemma lsays_lift {A} T (r : res A) : lsays T (lift r). Proof. intros x []. Qed.
Lemma lsays_ret {A} T (r : A) : lsays T (lret r). Proof. intros x []. Qed.
Lemma lsays_raise {A} T e : lsays T (@lraise A e). Proof. intros x []. Qed.
Lemma dbg_1 msg imp : dbg msg 1 imp = ([msg], Ok tt). Proof. reflexivity. Qed.
Lemma dbg_0 msg imp : dbg msg 0 imp = (if imp then [msg] else [], Ok tt). Proof. destruct imp; reflexivity. Qed.
Lemma dbg_says msg level imp : forall x, In x (fst (dbg msg level imp)) -> x = msg /\ (level = 0%Z -> imp = true) /\ level <> (-1)%Z.
Proof.
  intros x. unfold dbg, debug_message. destruct (existsb _ _) eqn:X; cbn [negb]; [|intros []].
  destruct (Z.eqb_spec level (-1)) as [->|N]; [intros []|].
  destruct (Z.eqb_spec level 2) as [->|N2]; [intros []|].
  destruct (Z.eqb_spec level 0) as [->|N0]; cbn [andb orb].
  - destruct imp; cbn; [intros [<-|[]]; auto|intros []].
  - destruct (Z.eqb_spec level 1) as [->|N1]; cbn; [|intros []]. intros [<-|[]]. repeat split; auto.
Qed.
Lemma lsays_dbg T msg level imp : In msg T -> lsays T (dbg msg level imp).
Proof. intros I x H. apply dbg_says in H. destruct H as [-> _]. exact I. Qed.
(** at level 0 only important messages, at level -1 none *)
Lemma lsays_dbg_quiet T msg level : level = 0%Z \/ level = (-1)%Z -> lsays T (dbg msg level false).
Proof. intros L x H. apply dbg_says in H. destruct H as (_ & H1 & H2). destruct L; [now apply H1 in H|contradiction]. Qed.
Lemma lsays_dbg_silent T msg imp : lsays T (dbg msg (-1) imp).
Proof. intros x H. apply dbg_says in H. destruct H as (_ & _ & H2). contradiction. Qed.
Ltac says_step :=
  first [ apply says_lift | apply says_ret | apply says_read | apply says_mod | apply says_log
        | apply lsays_lift | apply lsays_ret | apply lsays_raise
        | apply says_bind; [|intros ?] | apply lsays_bind; [|intros ?]
        | apply lsays_dbg_silent
        | apply lsays_dbg_quiet; solve [auto]
        | apply lsays_dbg; solve [cbn; auto 20]
        | match goal with
          | |- says _ (if ?b then _ else _) => destruct b
          | |- lsays _ (if ?b then _ else _) => destruct b
          | |- says _ (match ?x with _ => _ end) => destruct x
          | |- lsays _ (match ?x with _ => _ end) => destruct x
          end ].

(** ** alternation *)
Lemma interleave_swap {A} : forall (xs ys : list A),
  interleave xs ys = match xs with [] => ys | x :: r => x :: interleave ys r end.
Proof.
  induction xs as [|x xs IH]; intros ys; cbn; [reflexivity|]. f_equal.
  destruct ys as [|y ys]; cbn; [reflexivity|]. f_equal. rewrite IH. destruct xs; reflexivity.
Qed.
Lemma gather_interleave (t : list Q) : forall (p a : list nat) tp ta, gather t p = Ok tp -> gather t a = Ok ta ->
  gather t (interleave p a) = Ok (interleave tp ta).
Proof.
  induction p as [|i p IH]; intros a tp ta Hp Ha; cbn in Hp |- *.
  - inv_ok Hp. exact Ha.
  - inv_bind Hp. inv_bind Hp. inv_ok Hp. rewrite E. cbn [bind].
    destruct a as [|j a]; cbn in Ha |- *.
    + inv_ok Ha. rewrite E0. reflexivity.
    + inv_bind Ha. inv_bind Ha. inv_ok Ha. rewrite E1. cbn [bind]. rewrite (IH a v0 v2 E0 E2). reflexivity.
Qed.
Lemma sorted_neg l : existsb (fun d => Qlt_bool d 0) (qdiff l) = true <-> some_neighbours (fun x y => (y < x)%Q) l.
Proof.
  rewrite existsb_exists. split.
  - intros (d & I & N). apply In_nth_error in I. destruct I as [i Hi]. apply qdiff_nth in Hi.
    destruct Hi as (a & b & Ha & Hb & ->). apply Qlt_bool_iff in N. exists i, a, b. repeat split; auto. lra.
  - intros (i & x & y & Hx & Hy & L). exists (y - x)%Q. split; [|apply Qlt_bool_iff; lra].
    apply (nth_error_In _ i). apply qdiff_nth. eauto.
Qed.
Lemma zig_length le : forall xs ys, zigzag le xs ys -> length xs = length ys \/ length xs = S (length ys).
Proof. induction 1; cbn in *; lia. Qed.
Lemma zig_sorted : forall xs ys, zigzag Qlt xs ys -> ~ some_neighbours (fun x y => (y < x)%Q) (interleave xs ys).
Proof.
  induction 1 as [|x|x xs y ys L Z IH]; intros (i & u & v & Hu & Hv & N).
  - destruct i; discriminate.
  - destruct i as [|[|]]; discriminate.
  - rewrite interleave_swap in Hu, Hv. destruct i as [|i]; cbn [nth_error] in Hu, Hv.
    + apply Some_inj in Hu. subst u. rewrite interleave_swap in Hv. cbn in Hv. apply Some_inj in Hv. subst v. lra.
    + apply IH. exists i, u, v. auto.
Qed.
Lemma sorted_zig : forall n xs ys, length xs + length ys <= n -> length xs = length ys \/ length xs = S (length ys) ->
  ~ some_neighbours (fun x y => (y < x)%Q) (interleave xs ys) -> zigzag Qle xs ys.
Proof.
  induction n as [|n IH]; intros xs ys L D N.
  - destruct xs, ys; cbn in *; try lia. constructor.
  - destruct xs as [|x xs]; [destruct ys; cbn in *; [constructor|lia]|].
    destruct ys as [|y ys]; [destruct xs; cbn in *; [constructor|lia]|].
    constructor.
    + destruct (Qlt_le_dec y x) as [Q|Q]; [|exact Q]. exfalso. apply N. exists 0, x, y.
      rewrite interleave_swap. repeat split; auto.
    + apply IH; cbn in *; [lia|lia|]. intros (i & u & v & Hu & Hv & Q). apply N. rewrite interleave_swap.
      exists (S i), u, v. auto.
Qed.

(** ** what each check reports at level 1 *)
Definition differ_tag : string := "number of pericenters and apocenters differ".
Definition order_tag : string := "extrema do not alternate".
Lemma alternate_silent t p a tp ta w : samples_at t p tp -> samples_at t a ta -> p <> [] -> a <> [] ->
  check_alternate 1 t p a = (w, Ok tt) ->
  (forall x, In x w -> x = differ_tag \/ x = order_tag) /\
  (In differ_tag w <-> (2 <= Z.abs (Z.of_nat (length p) - Z.of_nat (length a)))%Z) /\
  (w = [] -> alternate Qle tp ta) /\ (alternate Qlt tp ta -> w = []).
Proof.
  intros Sp Sa Np Na. apply gather_samples in Sp, Sa.
  assert (Lp := gather_length _ _ _ Sp). assert (La := gather_length _ _ _ Sa).
  unfold check_alternate. change (1 <? 1)%Z with false. cbv iota.
  destruct (Z.leb_spec 2 (Z.abs (Z.of_nat (length p) - Z.of_nat (length a)))) as [D|D].
  - rewrite dbg_1. intros H. injection H as <-. repeat split; auto.
    + intros x [<-|[]]. auto.
    + now left.
    + discriminate.
    + intros [Z|Z]; apply zig_length in Z; exfalso; lia.
  - destruct p as [|p0 pr]; [contradiction|]. destruct a as [|a0 ar]; [contradiction|].
    destruct tp as [|x0 xs]; [discriminate|]. destruct ta as [|y0 ys]; [discriminate|].
    set (pf := if length (p0 :: pr) =? length (a0 :: ar) then Qlt_bool x0 y0 else length (a0 :: ar) <? length (p0 :: pr)).
    assert (PF : (if length (p0 :: pr) =? length (a0 :: ar) then
         let! tp := lift (gather t (p0 :: pr)) in let! tp0 := lift (get tp 0) in
         let! ta := lift (gather t (a0 :: ar)) in let! ta0 := lift (get ta 0) in
         lret (Qlt_bool tp0 ta0)
       else lret (length (a0 :: ar) <? length (p0 :: pr))) = ([], Ok pf)).
    { unfold pf. destruct (length (p0 :: pr) =? length (a0 :: ar)); [|reflexivity]. rewrite Sp, Sa. reflexivity. }
    rewrite PF. unfold lbind at 1. cbn [snd fst app].
    set (arr := if pf then interleave (p0 :: pr) (a0 :: ar) else interleave (a0 :: ar) (p0 :: pr)).
    set (tarr := if pf then interleave (x0 :: xs) (y0 :: ys) else interleave (y0 :: ys) (x0 :: xs)).
    assert (G : gather t arr = Ok tarr) by (unfold arr, tarr; destruct pf; now apply gather_interleave).
    unfold lbind at 1. unfold lift. rewrite G. cbn [snd fst app].
    assert (DT : In differ_tag [order_tag] -> (2 <= Z.abs (Z.of_nat (length (p0 :: pr)) - Z.of_nat (length (a0 :: ar))))%Z).
    { intros [X|[]]. discriminate X. }
    assert (LL : length (p0 :: pr) = length (x0 :: xs)) by (symmetry; exact Lp).
    assert (LM : length (a0 :: ar) = length (y0 :: ys)) by (symmetry; exact La).
    destruct (existsb (fun d => Qlt_bool d 0) (qdiff tarr)) eqn:X; intros H; injection H as <-.
    + split; [intros x [<-|[]]; auto|]. split; [split; [exact DT|lia]|]. split; [discriminate|].
      intros A. exfalso. apply sorted_neg in X. unfold tarr in X.
      assert (PZ : pf = true -> zigzag Qlt (x0 :: xs) (y0 :: ys)).
      { unfold pf. destruct (Nat.eqb_spec (length (p0 :: pr)) (length (a0 :: ar))) as [E|E].
        - intros Q. apply Qlt_bool_iff in Q. destruct A as [A|A]; [exact A|]. inversion A; subst. lra.
        - intros Q. apply Nat.ltb_lt in Q. destruct A as [A|A]; [exact A|]. apply zig_length in A. lia. }
      assert (NZ : pf = false -> zigzag Qlt (y0 :: ys) (x0 :: xs)).
      { unfold pf. destruct (Nat.eqb_spec (length (p0 :: pr)) (length (a0 :: ar))) as [E|E].
        - intros Q. apply Qlt_bool_false in Q. destruct A as [A|A]; [|exact A]. inversion A; subst. lra.
        - intros Q. apply Nat.ltb_ge in Q. destruct A as [A|A]; [|exact A]. apply zig_length in A. lia. }
      destruct pf; [apply (zig_sorted _ _ (PZ eq_refl)); exact X|apply (zig_sorted _ _ (NZ eq_refl)); exact X].
    + split; [intros x []|]. split; [split; [intros []|lia]|]. split; [|reflexivity]. intros _.
      assert (N : ~ some_neighbours (fun x y => (y < x)%Q) tarr).
      { intros N. apply sorted_neg in N. congruence. }
      unfold tarr in N. destruct pf eqn:PE; [left|right]; (eapply sorted_zig; [apply le_n| |exact N]).
      * unfold pf in PE. destruct (Nat.eqb_spec (length (p0 :: pr)) (length (a0 :: ar))) as [E|E]; [left; congruence|].
        apply Nat.ltb_lt in PE. right. rewrite <- LL, <- LM. lia.
      * unfold pf in PE. destruct (Nat.eqb_spec (length (p0 :: pr)) (length (a0 :: ar))) as [E|E]; [left; congruence|].
        apply Nat.ltb_ge in PE. right. rewrite <- LL, <- LM. lia.
Qed.
Definition close_tag : string := "extrema too close".
Definition pi_tag : string := "phase shift closer to pi".
Definition far_tag : string := "extrema too far".
Lemma some_diff (f : Q -> bool) (R : Q -> Q -> Prop) l : (forall x y, f (y / 2 - x / 2)%Q = true <-> R x y) ->
  existsb f (qdiff (map (fun x => x / 2)%Q l)) = true <-> some_neighbours R l.
Proof.
  intros E. rewrite existsb_exists. split.
  - intros (d & I & N). apply In_nth_error in I. destruct I as [i Hi]. apply qdiff_nth in Hi.
    destruct Hi as (a & b & Ha & Hb & ->). rewrite nth_error_map in Ha, Hb.
    destruct (nth_error l i) as [x|] eqn:Hx; [|discriminate]. destruct (nth_error l (S i)) as [y|] eqn:Hy; [|discriminate].
    cbn in Ha, Hb. apply Some_inj in Ha, Hb. subst. exists i, x, y. repeat split; auto. now apply E.
  - intros (i & x & y & Hx & Hy & L). exists (y / 2 - x / 2)%Q. split; [|now apply E].
    apply (nth_error_In _ i). apply qdiff_nth. exists (x / 2)%Q, (y / 2)%Q. rewrite !nth_error_map, Hx, Hy. auto.
Qed.
Lemma pairs_nth {A} : forall (l : list A) i a b, nth_error (combine (tl l) l) i = Some (a, b) <->
  nth_error l i = Some b /\ nth_error l (S i) = Some a.
Proof.
  induction l as [|x l IH]; intros i a b; [destruct i; cbn; split; [discriminate|intros [? ?]; discriminate|discriminate|intros [? ?]; discriminate]|].
  destruct l as [|y l].
  - cbn. destruct i; cbn; split; try discriminate; intros [H1 H2]; [discriminate|destruct i; discriminate].
  - destruct i as [|i].
    + cbn. split; [intros H; injection H as <- <-; auto|]. intros [H1 H2]. congruence.
    + change (nth_error (combine (tl (x :: y :: l)) (x :: y :: l)) (S i)) with (nth_error (combine l (y :: l)) i).
      change (combine l (y :: l)) with (combine (tl (y :: l)) (y :: l)). rewrite IH. reflexivity.
Qed.
Lemma half_eq x : (x / 2 == (1 # 2) * x)%Q.
Proof. field. Qed.
Lemma some_ratio l : increasing l ->
  existsb (fun nd => ratio_gt (fst nd) (snd nd) max_ratio)
    (combine (tl (qdiff (map (fun x => x / 2)%Q l))) (qdiff (map (fun x => x / 2)%Q l))) = true <->
  some_triple (fun x y z => (3 # 2) * (y - x) < z - y)%Q l.
Proof.
  intros Inc. rewrite existsb_exists. set (m := map (fun x => x / 2)%Q l).
  assert (M : forall i d, nth_error (qdiff m) i = Some d <-> exists x y, nth_error l i = Some x /\ nth_error l (S i) = Some y /\ d = (y / 2 - x / 2)%Q).
  { intros i d. rewrite qdiff_nth. unfold m. rewrite !nth_error_map. split.
    - intros (a & b & Ha & Hb & ->). destruct (nth_error l i) as [x|]; [|discriminate]. destruct (nth_error l (S i)) as [y|]; [|discriminate].
      cbn in Ha, Hb. apply Some_inj in Ha, Hb. subst. eauto.
    - intros (x & y & -> & -> & ->). cbn. eauto. }
  assert (R : forall x y z, (x < y)%Q -> ratio_gt (z / 2 - y / 2)%Q (y / 2 - x / 2)%Q max_ratio = true <-> ((3 # 2) * (y - x) < z - y)%Q).
  { intros x y z P. unfold ratio_gt. destruct (Qeq_bool _ 0) eqn:Z; [apply Qeq_bool_iff in Z; rewrite !half_eq in Z; exfalso; lra|].
    rewrite Qlt_bool_iff. unfold max_ratio. assert (D : (0 < y / 2 - x / 2)%Q) by (rewrite !half_eq; lra). split; intros H.
    - apply (Qmult_lt_r _ _ (y / 2 - x / 2) D) in H.
      assert (Q : ((z / 2 - y / 2) / (y / 2 - x / 2) * (y / 2 - x / 2) == z / 2 - y / 2)%Q) by (field; intros Z0; lra).
      rewrite Q in H. rewrite !half_eq in H. lra.
    - apply Qlt_shift_div_l; [exact D|]. rewrite !half_eq. lra. }
  split.
  - intros ([a b] & I & N). cbn [fst snd] in N. apply In_nth_error in I. destruct I as [i Hi]. apply pairs_nth in Hi.
    destruct Hi as [Hb Ha]. apply M in Hb. apply M in Ha. destruct Hb as (x & y & Hx & Hy & ->). destruct Ha as (y' & z & Hy' & Hz & ->).
    rewrite Hy in Hy'. apply Some_inj in Hy'. subst y'. exists i, x, y, z. repeat split; auto. apply R; [|exact N].
    exact (Inc i (S i) x y (Nat.lt_succ_diag_r i) Hx Hy).
  - intros (i & x & y & z & Hx & Hy & Hz & N). exists ((z / 2 - y / 2)%Q, (y / 2 - x / 2)%Q). split.
    + apply (nth_error_In _ i). apply pairs_nth. split; apply M; eauto 10.
    + cbn [fst snd]. apply R; [|exact N]. exact (Inc i (S i) x y (Nat.lt_succ_diag_r i) Hx Hy).
Qed.
Lemma lbind_pure {A B} (a : A) (f : A -> lg B) : lbind ([], Ok a) f = f a.
Proof. unfold lbind. cbn. now destruct (f a). Qed.
Lemma separation_says t phase loc ph w : samples_at phase loc ph ->
  check_separation 1 t phase loc = (w, Ok tt) ->
  (forall x, In x w -> In x [close_tag; pi_tag; far_tag]) /\
  (In close_tag w <-> some_neighbours (fun x y => (y - x) / 2 < np_pi)%Q ph) /\
  (In pi_tag w <-> some_neighbours (fun x y => Qabs ((y - x) / 2 - np_pi) < Qabs ((y - x) / 2 - 2 * np_pi))%Q ph) /\
  (increasing ph -> (In far_tag w <-> some_triple (fun x y z => (3 # 2) * (y - x) < z - y)%Q ph)).
Proof.
  intros S. apply gather_samples in S. unfold check_separation. change (1 <? 1)%Z with false. cbv iota. rewrite S.
  unfold lift. rewrite lbind_pure. cbv zeta. destruct (gather t loc) as [tl'|e]; [rewrite lbind_pure|discriminate].
  set (d := qdiff (map (fun x => x / 2)%Q ph)).
  assert (E1 := some_diff (fun x => Qlt_bool x np_pi) (fun x y => (y - x) / 2 < np_pi)%Q ph).
  assert (E2 := some_diff (fun x => Qlt_bool (Qabs (x - np_pi)) (Qabs (x - 2 * np_pi)))
     (fun x y => Qabs ((y - x) / 2 - np_pi) < Qabs ((y - x) / 2 - 2 * np_pi))%Q ph).
  assert (E3 := some_ratio ph). fold d in E1, E2, E3.
  assert (F1 : forall x y : Q, Qlt_bool (y / 2 - x / 2) np_pi = true <-> ((y - x) / 2 < np_pi)%Q)
    by (intros x y; rewrite Qlt_bool_iff, !half_eq; split; intros; lra).
  assert (F2 : forall x y : Q, Qlt_bool (Qabs (y / 2 - x / 2 - np_pi)) (Qabs (y / 2 - x / 2 - 2 * np_pi)) = true <->
     (Qabs ((y - x) / 2 - np_pi) < Qabs ((y - x) / 2 - 2 * np_pi))%Q).
  { intros x y. assert (Q : (y / 2 - x / 2 == (y - x) / 2)%Q) by field. rewrite Qlt_bool_iff, Q. reflexivity. }
  specialize (E1 F1). specialize (E2 F2).
  destruct (existsb (fun x => Qlt_bool x np_pi) d); destruct (existsb (fun x => Qlt_bool (Qabs (x - np_pi)) (Qabs (x - 2 * np_pi))) d);
  destruct (existsb (fun nd => ratio_gt (fst nd) (snd nd) max_ratio) (combine (tl d) d));
  rewrite ?dbg_1; unfold lbind, lret; cbn [snd fst app]; intros H; injection H as <-;
  (split; [intros x Ix; unfold close_tag, pi_tag, far_tag; cbn [In] in Ix |- *; tauto|]);
  (split; [rewrite <- E1; cbn; intuition discriminate|]);
  (split; [rewrite <- E2; cbn; intuition discriminate|]);
  intros Inc; rewrite <- (E3 Inc); cbn; intuition discriminate.
Qed.
Definition dropped_tag : string := "dropped too many extrema".
Lemma dropped_says n m w : check_dropped 1 n m = (w, Ok tt) ->
  (forall x, In x w -> x = dropped_tag) /\ (In dropped_tag w <-> (Z.of_nat n < 2 * (Z.of_nat n - Z.of_nat m))%Z).
Proof.
  unfold check_dropped. change (1 <? 1)%Z with false. cbv iota.
  destruct (Qlt_bool _ _) eqn:E; [rewrite dbg_1|]; intros H; injection H as <-.
  - apply Qlt_bool_iff in E. split; [intros x [<-|[]]; auto|]. split; [|now left]. intros _.
    unfold Qlt in E. cbn [Qnum Qden Qmult inject_Z] in E. change (Z.pos (2 * 1)) with 2%Z in E. lia.
  - apply Qlt_bool_false in E. split; [intros x []|]. split; [intros []|]. intros L. exfalso.
    unfold Qle in E. cbn [Qnum Qden Qmult inject_Z] in E. change (Z.pos (2 * 1)) with 2%Z in E. lia.
Qed.

(** ** the warnings of a whole measurement *)
Definition clean_tags : list string :=
  ["extra pericenters at the end"; "extra apocenters at the end"; "extra pericenters at the start";
   "extra apocenters at the start"; "extrema too widely separated near the end";
   "extrema too widely separated near the start"; "extrema too close in the second half";
   "extrema too close in the first half"]%string.
Definition curve_tags : list string :=
  ["both degrees 1 and still nonmonotonic, using spline"; "lowering degrees";
   "increasing degrees caused nonmonotonicity, reverting"; "nonmonotonic derivative of the interpolant";
   "fref bounds only for the short segment"; "tref_in is not increasing"]%string.
Definition mono_tag : string := "egw(t) is nonmonotonic".
Definition neg_tag : string := "negative eccentricity".
Lemma good_says level phase p a : lsays clean_tags (get_good_extrema level phase p a).
Proof.
  unfold get_good_extrema, drop_extrema_if_extrema_jumps, drop_extrema_if_too_close, drop_extra_extrema_at_ends.
  repeat says_step.
Qed.
Section Says.
  Context {V : Type}.
  Variable ecc_of : Q -> Q -> V.
  Variable vzero : V.
  Variable vneg : V -> bool.
  Variable find_extrema : bool -> res (list nat).
  Variable sv : list Q -> list Q -> nat -> Q -> Q.
  Variable pv : list Q -> list Q -> Q -> Q.
  Variable rfit : list Q -> list Q -> Z * Z -> res curve.
  Variable slope : list Q -> list V -> list bool.
  Notation measure := (measure_ecc ecc_of vzero vneg find_extrema sv pv rfit slope).
  Notation from_extrema := (measure_from_extrema ecc_of vneg sv pv rfit slope).

  Lemma lower_says {F} (fit_for : Z * Z -> res F) nonmono spl level : forall fuel d h,
    lsays curve_tags (lower_loop fit_for nonmono spl fuel level d h).
  Proof. induction fuel as [|n IH]; intros d h; cbn [lower_loop]; repeat says_step. apply IH. Qed.
  Lemma raise_says {F} (fit_for : Z * Z -> res F) nonmono np level : forall fuel d last h,
    lsays curve_tags (raise_loop fit_for nonmono np fuel level d last h).
  Proof. induction fuel as [|n IH]; intros d last h; cbn [raise_loop]; cbv zeta; repeat says_step. apply IH. Qed.
  Lemma search_says {F} (fit_for : Z * Z -> res F) nonmono spl np level user n m :
    lsays curve_tags (adaptive_search fit_for nonmono spl np level user n m).
  Proof.
    unfold adaptive_search. do 3 (apply lsays_bind; [apply lsays_lift|intros ?]). cbv zeta.
    match goal with |- lsays _ (if ?b then _ else _) => destruct b end; [apply lower_says|apply raise_says].
  Qed.
  Lemma curve_says level c n m tc loc : says curve_tags (extrema_curve sv pv rfit level c n m tc loc).
  Proof.
    unfold extrema_curve, rational_curve. repeat first [apply search_says | says_step].
  Qed.
  Lemma bounds_says level c m : says curve_tags (get_fref_bounds sv pv level c m).
  Proof. unfold get_fref_bounds, get_omega_gw_average, run_averaging. repeat (cbv zeta; says_step). Qed.
  Lemma tref_says level c fr : says curve_tags (tref_fref_from_fref sv pv level c fr).
  Proof.
    unfold tref_fref_from_fref, get_fref_out, get_omega_gw_average, run_averaging.
    repeat (cbv zeta; first [apply bounds_says | says_step]).
  Qed.
  Lemma says_in {A} T (m : act A) s w y : says T m -> m s = (w, y) -> forall x, In x w -> In x T.
  Proof. intros S E x I. apply (S s). now rewrite E. Qed.

  Definition loud (level : Z) : Prop := level = 0%Z \/ level = 1%Z.
  Lemma dbg_loud msg level : loud level -> dbg msg level true = ([msg], Ok tt).
  Proof. intros [-> | ->]; reflexivity. Qed.

  Lemma from_says level c p a s w s' r : loud level -> from_extrema level c p a s = (w, (s', Ok r)) ->
    exists wo wm wn, w = (wo ++ wm ++ wn)%list /\ (forall x, In x wo -> In x curve_tags) /\
      (forall x, In x wm -> x = mono_tag) /\ (In mono_tag wm <-> exists d, s_decc s' = Some d /\ In true d) /\
      (forall x, In x wn -> x = neg_tag) /\ (In neg_tag wn <-> exists e, In e (entries (r_eccentricity r)) /\ vneg e = true).
  Proof.
    intros L H. assert (HR : run (from_extrema level c p a) s = (s', Ok r)) by (unfold run; now rewrite H).
    unfold measure_from_extrema in H. cbv zeta in H.
    wstep H as q0 t0 z0 Q0. injection Q0 as <- <- _. cbn [app].
    wstep H as q1 t1 z1 Q1. injection Q1 as <- <- _. cbn [app].
    wstep H as q2 t2 z2 Q2. injection Q2 as <- <- _. cbn [app].
    wstep H as q3 t3 z3 Q3. injection Q3 as <- <- _. cbn [app].
    wstep H as q4 t4 z4 Q4. injection Q4 as <- <- _. cbn [app].
    wstep H as q5 t5 z5 Q5. injection Q5 as <- <- _. cbn [app].
    wstep H as u1 s1 w1 E1. injection E1 as <- <- _. cbn [app].
    wstep H as fp s2 w2' E2. assert (E2' := says_in curve_tags _ _ _ _ (curve_says _ _ _ _ _ _) E2). clear E2.
    wstep H as cs s3 w3 E3. injection E3 as <- <- <-. cbn [app].
    wstep H as u4 s4 w4 E4. injection E4 as <- <- _. cbn [app].
    wstep H as fa s5 w5 E5. assert (E5' := says_in curve_tags _ _ _ _ (curve_says _ _ _ _ _ _) E5). clear E5.
    wstep H as u6 s6 w6 E6. injection E6 as <- <- _. cbn [app].
    wstep H as tf s7 w7 E7.
    assert (E7' : forall x, In x w7 -> In x curve_tags).
    { destruct (c_ref c); [injection E7 as <- _; intros x []|]. exact (says_in curve_tags _ _ _ _ (tref_says _ _ _) E7). }
    clear E7.
    wstep H as u8 s8 w8 E8. assert (W8 : w8 = []).
    { destruct (c_ref c); [now injection E8|]. match type of E8 with (if ?b then _ else _) _ = _ => destruct b end; now injection E8. }
    subst w8. clear E8.
    wstep H as u9 s9 w9 E9. assert (W9 : w9 = []).
    { destruct (filter _ (fst tf)); [|now injection E9]. unfold abind, alift in E9. destruct (check_input_limits _ _ _); discriminate E9. }
    subst w9. clear E9.
    wstep H as r0 s10 w10 E10. injection E10 as <- <- R0. cbn [app].
    wstep H as rn s11 w11 E11. injection E11 as <- <- Rn. cbn [app].
    wstep H as u12 s12 w12 E12. assert (W12 : w12 = []).
    { match type of E12 with (if ?b then _ else _) _ = _ => destruct b end; now injection E12. } subst w12. clear E12.
    wstep H as ecc s13 w13 E13. injection E13 as <- <- Ecc. cbn [app].
    wstep H as mean s14 w14 E14. injection E14 as <- <- Mean. cbn [app].
    wstep H as u15 s15 w15 E15.
    wstep H as u16 s16 w16 E16. injection H as <- <- MR.
    exists (w2' ++ w5 ++ w7)%list, w15, w16. split; [now rewrite !app_nil_r, <- ?app_assoc|].
    split. { intros x. rewrite !in_app_iff. intros [I|[I|I]]; auto. }
    assert (S16 : s16 = s15).
    { match type of E16 with (if ?b then _ else _) _ = _ => destruct b end; now injection E16. } subst s16.
    assert (M : (forall x, In x w15 -> x = mono_tag) /\ (In mono_tag w15 <-> exists d, s_decc s15 = Some d /\ In true d)).
    { clear -E15 L. unfold check_ecc_monotone in E15. wstep E15 as d0 sa wa EA. injection EA as <- <- <-. cbn [app].
      wstep E15 as d sb wb EB.
      assert (B : wb = [] /\ s_decc sb = Some d).
      { match type of EB with (match ?o with _ => _ end) _ = _ => destruct o as [d'|] eqn:D end; [injection EB as <- <- <-; auto|].
        wstep EB as k1 g1 y1 B1. injection B1 as <- <- _. wstep EB as k2 g2 y2 B2. injection B2 as <- <- _.
        wstep EB as k3 g3 y3 B3. injection B3 as <- <- _. cbv zeta in EB. wstep EB as k4 g4 y4 B4.
        injection B4 as <- <- _. injection EB as <- <- <-. auto. }
      destruct B as [-> B]. cbn [app].
      destruct (existsb (fun b => b) d) eqn:X.
      - unfold alog in E15. unfold mono_tag. rewrite (dbg_loud _ level L) in E15. injection E15 as <- <-. split; [intros x [<-|[]]; auto|].
        split; [|now left]. intros _. exists d. split; [exact B|]. apply existsb_exists in X. destruct X as ([] & I & Y); [exact I|discriminate].
      - injection E15 as <- <-. split; [intros x []|]. split; [intros []|]. intros (d' & D' & I). rewrite B in D'. apply Some_inj in D'. subst d'.
        assert (existsb (fun b => b) d = true) by (apply existsb_exists; exists true; auto). congruence. }
    destruct M as [M1 M2]. split; [exact M1|]. split; [exact M2|].
    assert (RE : entries (r_eccentricity r) = ecc).
    { clear -MR. unfold make_result in MR. destruct (c_scalar c).
      - destruct (Nat.eqb_spec (length ecc) 1) as [E1|]; [|discriminate MR]. destruct (negb (length mean =? 1)); [discriminate MR|].
        cbn [negb] in MR. destruct ecc as [|e [|]]; try discriminate E1. inv_bind MR. inv_bind MR. inv_bind MR. apply Ok_inj in MR. subst r. apply get_ok in E. cbn in E. apply Some_inj in E. subst v.
        now destruct (c_ref c).
      - apply Ok_inj in MR. subst r. now destruct (c_ref c). }
    rewrite RE. clear -E16 L. destruct (existsb vneg ecc) eqn:X.
    - unfold alog in E16. unfold neg_tag. rewrite (dbg_loud _ level L) in E16. injection E16 as <-. split; [intros x [<-|[]]; auto|].
      split; [|now left]. intros _. apply existsb_exists in X. exact X.
    - injection E16 as <-. split; [intros x []|]. split; [intros []|]. intros N. apply existsb_exists in N. congruence.
  Qed.

  (** at level 1 *)
  Lemma measure_says c s w s' r : measure 1%Z c s = (w, (s', Ok r)) -> s_zero s' = Some false ->
    exists p0 a0 gp ga p a php pha tp ta,
      find_extrema true = Ok p0 /\ raw_apocenters find_extrema c p0 a0 /\
      snd (get_good_extrema 1%Z (c_phase c) p0 a0) = Ok (gp, ga) /\
      s_peri s' = Some p /\ s_apo s' = Some a /\
      samples_at (c_phase c) p php /\ samples_at (c_phase c) a pha /\ samples_at (c_t c) p tp /\ samples_at (c_t c) a ta /\
      (In neg_tag w <-> exists e, In e (entries (r_eccentricity r)) /\ vneg e = true) /\
      (In mono_tag w <-> exists d, s_decc s' = Some d /\ In true d) /\
      (In close_tag w <-> exists ph, (ph = php \/ ph = pha) /\ some_neighbours (fun x y => (y - x) / 2 < np_pi)%Q ph) /\
      (In pi_tag w <-> exists ph, (ph = php \/ ph = pha) /\
         some_neighbours (fun x y => Qabs ((y - x) / 2 - np_pi) < Qabs ((y - x) / 2 - 2 * np_pi))%Q ph) /\
      (increasing php -> increasing pha ->
       (In far_tag w <-> exists ph, (ph = php \/ ph = pha) /\ some_triple (fun x y z => (3 # 2) * (y - x) < z - y)%Q ph)) /\
      (In dropped_tag w <-> (Z.of_nat (length p0) < 2 * (Z.of_nat (length p0) - Z.of_nat (length gp)))%Z \/
                            (Z.of_nat (length a0) < 2 * (Z.of_nat (length a0) - Z.of_nat (length ga)))%Z) /\
      (In differ_tag w <-> (2 <= Z.abs (Z.of_nat (length p) - Z.of_nat (length a)))%Z) /\
      (~ In differ_tag w -> ~ In order_tag w -> alternate Qle tp ta) /\
      (alternate Qlt tp ta -> ~ In differ_tag w /\ ~ In order_tag w).
  Proof.
    intros H Zf. assert (HR : run (measure 1%Z c) s = (s', Ok r)) by (unfold run; now rewrite H).
    destruct (not_zero _ _ _ _ _ _ _ _ _ _ _ _ _ HR Zf) as (p & a & P & A & _).
    destruct (measured _ _ _ _ _ _ _ _ _ _ _ _ _ HR Zf) as (p' & a' & tp & ta & lo & hi & fp & fa & ts & P' & A' & Sp & Sa & CW & _).
    rewrite P in P'. rewrite A in A'. apply Some_inj in P', A'. subst p' a'.
    unfold measure_ecc in H.
    wstep H as p0 t1 z1 Q1. injection Q1 as <- <- Fp. cbn [app] in *.
    wstep H as fewp t2 z2 Q2. injection Q2 as Z2 <- Np. apply num_extrema_ok in Np.
    wstep H as a0 t3 z3 Q3. assert (X3 : z3 = [] /\ t3 = s /\ raw_apocenters find_extrema c p0 a0).
    { unfold raw_apocenters. destruct (c_midpoints c); [injection Q3 as <- <- <-; auto|]. injection Q3 as <- <- Q3. auto. }
    destruct X3 as (-> & -> & Ra). clear Q3.
    wstep H as fewa t4 z4 Q4. injection Q4 as Z4 <- Na. apply num_extrema_ok in Na.
    destruct ((fewp || fewa) && c_return_zero c) eqn:F.
    { exfalso. wstep H as u5 t5 z5 Q5. injection Q5 as _ <- _. injection H as _ <- _. cbn in Zf. discriminate. }
    assert (z2 = [] /\ z4 = [] /\ 2 <= length p0 /\ 2 <= length a0).
    { destruct Np as [[-> Np]|(-> & Np & LW & R)]; [|rewrite R in F; discriminate].
      destruct Na as [[-> Na]|(-> & Na & LW & R)]; [|rewrite R in F; discriminate].
      unfold check_num_extrema in Z2, Z4. apply Nat.ltb_ge in Np as Np', Na as Na'. rewrite Np' in Z2. rewrite Na' in Z4. cbn in Z2, Z4. auto. }
    destruct H0 as (-> & -> & L1 & L2). clear Z2 Z4. cbn [app].
    wstep H as u5 t5 z5 Q5. injection Q5 as <- <- _. cbn [app].
    wstep H as good t6 zg Q6. injection Q6 as Zg <- Gd. destruct good as [gp ga].
    wstep H as u7 t7 z7 Q7. injection Q7 as <- <- _. cbn [app fst snd] in *.
    wstep H as u8 t8 zd1 Q8. injection Q8 as D1 <- D1'.
    wstep H as u9 t9 zd2 Q9. injection Q9 as D2 <- D2'. cbv zeta in H.
    set (pa := if c_precessing c && c_filtered c then (tl gp, tl ga) else (gp, ga)) in H.
    wstep H as u10 t10 z10 Q10. injection Q10 as <- <- _. cbn [app] in *.
    wstep H as u11 t11 zal Q11. injection Q11 as A1 <- A1'.
    wstep H as u12 t12 zs1 Q12. injection Q12 as S1 <- S1'.
    wstep H as u13 t13 zs2 Q13. injection Q13 as S2 <- S2'.
    assert (HR2 := H). apply (f_equal snd) in HR2. fold (run (from_extrema 1 c (fst pa) (snd pa)) (set_locations (fst pa) (snd pa) (set_locations gp ga (set_zero false s)))) in HR2. cbn [snd] in HR2.
    assert (F2 := from_inv ecc_of vneg sv pv rfit slope 1 c _ _ _ s' r HR2).
    assert (F3 : s_peri s' = Some (fst pa) /\ s_apo s' = Some (snd pa)).
    { destruct F2 as (? & ? & ? & ? & ? & ? & ? & ? & ? & ? & _ & _ & _ & _ & _ & PP & AA & _). split; assumption. }
    clear F2. destruct F3 as [PP AA].
    rewrite P in PP. rewrite A in AA. apply Some_inj in PP, AA. rewrite <- PP, <- AA in *. clear HR2.
    apply from_says in H; [|now right]. destruct H as (wo & wm & wn & -> & O1 & M1 & M2 & N1 & N2).
    destruct u8, u9, u11, u12, u13.
    assert (CS1 : check_separation 1 (c_t c) (c_phase c) p = (zs1, Ok tt)) by (rewrite <- S1, <- S1'; now destruct (check_separation _ _ _ p)).
    assert (CS2 : check_separation 1 (c_t c) (c_phase c) a = (zs2, Ok tt)) by (rewrite <- S2, <- S2'; now destruct (check_separation _ _ _ a)).
    assert (CA : check_alternate 1 (c_t c) p a = (zal, Ok tt)) by (rewrite <- A1, <- A1'; now destruct (check_alternate _ _ _ a)).
    assert (CD1 : check_dropped 1 (length p0) (length gp) = (zd1, Ok tt)) by (rewrite <- D1, <- D1'; now destruct (check_dropped _ _ (length gp))).
    assert (CD2 : check_dropped 1 (length a0) (length ga) = (zd2, Ok tt)) by (rewrite <- D2, <- D2'; now destruct (check_dropped _ _ (length ga))).
    assert (GS : forall x, In x zg -> In x clean_tags) by (intros x I; apply (good_says 1 (c_phase c) p0 a0); now rewrite Zg).
    assert (XP : exists php, samples_at (c_phase c) p php).
    { clear -S1'. unfold check_separation in S1'. change (1 <? 1)%Z with false in S1'. cbv iota in S1'.
      destruct (gather (c_phase c) p) as [php|] eqn:G; [exists php; now apply gather_samples|discriminate S1']. }
    assert (XA : exists pha, samples_at (c_phase c) a pha).
    { clear -S2'. unfold check_separation in S2'. change (1 <? 1)%Z with false in S2'. cbv iota in S2'.
      destruct (gather (c_phase c) a) as [pha|] eqn:G; [exists pha; now apply gather_samples|discriminate S2']. }
    destruct XP as [php XP]. destruct XA as [pha XA].
    destruct (separation_says _ _ _ _ _ XP CS1) as (T1 & T2 & T3 & T4).
    destruct (separation_says _ _ _ _ _ XA CS2) as (U1 & U2 & U3 & U4).
    destruct (dropped_says _ _ _ CD1) as (V1 & V2). destruct (dropped_says _ _ _ CD2) as (W1 & W2).
    assert (NP : p <> []). { intros ->. inversion Sp; subst. destruct CW as (? & ? & ? & ? & [? X] & _). discriminate X. }
    assert (NA : a <> []). { intros ->. inversion Sa; subst. destruct CW as (? & ? & ? & ? & _ & _ & [? X] & _). discriminate X. }
    destruct (alternate_silent _ _ _ _ _ _ Sp Sa NP NA CA) as (Y1 & Y2 & Y3 & Y4).
    exists p0, a0, gp, ga, p, a, php, pha, tp, ta.
    do 9 (split; [assumption|]).
    assert (IN : forall x, In x (zg ++ zd1 ++ zd2 ++ zal ++ zs1 ++ zs2 ++ wo ++ wm ++ wn) <->
      In x zg \/ In x zd1 \/ In x zd2 \/ In x zal \/ In x zs1 \/ In x zs2 \/ In x wo \/ In x wm \/ In x wn).
    { clear. intros x. rewrite !in_app_iff. tauto. }
    clear S1 S2 A1 D1 D2 S1' S2' A1' D1' D2' CS1 CS2 CA CD1 CD2.
    (* which part a message can come from *)
    assert (NG : forall x, In x zg -> ~ In x [neg_tag; mono_tag; close_tag; pi_tag; far_tag; dropped_tag; differ_tag; order_tag]).
    { intros x I J. apply GS in I. cbn in I, J. repeat (destruct I as [<-|I]; [intuition discriminate|]). destruct I. }
    assert (NO : forall x, In x wo -> ~ In x [neg_tag; mono_tag; close_tag; pi_tag; far_tag; dropped_tag; differ_tag; order_tag]).
    { intros x I J. apply O1 in I. cbn in I, J. repeat (destruct I as [<-|I]; [intuition discriminate|]). destruct I. }
    assert (D : forall x, In x zd1 \/ In x zd2 -> x = dropped_tag) by (intros x [I|I]; auto).
    assert (SS : forall x, In x zs1 \/ In x zs2 -> In x [close_tag; pi_tag; far_tag]) by (intros x [I|I]; auto).
    assert (K : forall x, In x [neg_tag; mono_tag; close_tag; pi_tag; far_tag; dropped_tag; differ_tag; order_tag] ->
       In x (zg ++ zd1 ++ zd2 ++ zal ++ zs1 ++ zs2 ++ wo ++ wm ++ wn) <->
       (x = dropped_tag /\ (In x zd1 \/ In x zd2)) \/ ((x = differ_tag \/ x = order_tag) /\ In x zal) \/
       (In x [close_tag; pi_tag; far_tag] /\ (In x zs1 \/ In x zs2)) \/ (x = mono_tag /\ In x wm) \/ (x = neg_tag /\ In x wn)).
    { intros x J. rewrite IN. specialize (NG x). specialize (NO x). specialize (D x). specialize (SS x). specialize (Y1 x). specialize (M1 x). specialize (N1 x). clear -J NG NO D SS Y1 M1 N1. tauto. }
    split. { rewrite K by (cbn; tauto). rewrite <- N2. cbn [In]. split; [|tauto]. intros [[X _]|[[[X|X] _]|[[[X|[X|[X|[]]]] _]|[[X _]|[_ I]]]]]; try discriminate X; exact I. }
    split. { rewrite K by (cbn; tauto). rewrite <- M2. cbn [In]. split; [|tauto]. intros [[X _]|[[[X|X] _]|[[[X|[X|[X|[]]]] _]|[[_ I]|[X _]]]]]; try discriminate X; exact I. }
    assert (SX : forall x, In x [close_tag; pi_tag; far_tag] -> In x (zg ++ zd1 ++ zd2 ++ zal ++ zs1 ++ zs2 ++ wo ++ wm ++ wn) <-> In x zs1 \/ In x zs2).
    { intros x J. rewrite K by (cbn in J |- *; tauto). split; [|tauto].
      intros [[X _]|[[[X|X] _]|[[_ I]|[[X _]|[X _]]]]]; try exact I; subst x; cbn in J; intuition discriminate. }
    split. { rewrite SX by (cbn; tauto). rewrite T2, U2. split; [intros [I|I]; eauto|intros (ph & [-> | ->] & I); auto]. }
    split. { rewrite SX by (cbn; tauto). rewrite T3, U3. split; [intros [I|I]; eauto|intros (ph & [-> | ->] & I); auto]. }
    split. { intros I1 I2. rewrite SX by (cbn; tauto). rewrite (T4 I1), (U4 I2). split; [intros [I|I]; eauto|intros (ph & [-> | ->] & I); auto]. }
    split. { rewrite K by (cbn; tauto). rewrite <- V2, <- W2. cbn [In]. split; [|tauto]. intros [[_ I]|[[[X|X] _]|[[[X|[X|[X|[]]]] _]|[[X _]|[X _]]]]]; try discriminate X; exact I. }
    assert (AX : forall x, x = differ_tag \/ x = order_tag -> In x (zg ++ zd1 ++ zd2 ++ zal ++ zs1 ++ zs2 ++ wo ++ wm ++ wn) <-> In x zal).
    { intros x J. rewrite K by (cbn; destruct J as [-> | ->]; tauto). split; [|tauto].
      intros [[X _]|[[_ I]|[[X _]|[[X _]|[X _]]]]]; try exact I; destruct J as [-> | ->]; cbn in X; intuition discriminate. }
    split; [rewrite (AX differ_tag) by auto; exact Y2|].
    rewrite (AX differ_tag), (AX order_tag) by auto. split.
    - intros N3 N4. apply Y3. destruct zal as [|x zal]; [reflexivity|]. exfalso.
      destruct (Y1 x (or_introl eq_refl)); subst x; [apply N3|apply N4]; now left.
    - intros AL. rewrite (Y4 AL). split; intros [].
  Qed.

  (** every message with its importance *)
  Definition few_tag : string := "too few extrema, setting eccentricity to zero".
  Definition important_tags : list string :=
    ["both degrees 1 and still nonmonotonic, using spline"; "nonmonotonic derivative of the interpolant";
     "egw(t) is nonmonotonic"; "negative eccentricity"]%string.
  Section Level.
    Variable T : list string.
    Variable level : Z.
    Hypothesis HT : forall msg imp, (imp = true -> In msg important_tags) -> lsays T (dbg msg level imp).
    Hypothesis HF : In few_tag T.
    Ltac hstep := first [ apply HT; solve [discriminate | intros _; cbn; tauto] | apply lsays_dbg; exact HF | says_step ].
    Lemma lower_T {F} (fit_for : Z * Z -> res F) nonmono spl : forall fuel d h,
      lsays T (lower_loop fit_for nonmono spl fuel level d h).
    Proof. induction fuel as [|n IH]; intros d h; cbn [lower_loop]; repeat hstep. apply IH. Qed.
    Lemma raise_T {F} (fit_for : Z * Z -> res F) nonmono np : forall fuel d last h,
      lsays T (raise_loop fit_for nonmono np fuel level d last h).
    Proof. induction fuel as [|n IH]; intros d last h; cbn [raise_loop]; cbv zeta; repeat hstep. apply IH. Qed.
    Lemma search_T {F} (fit_for : Z * Z -> res F) nonmono spl np user n m :
      lsays T (adaptive_search fit_for nonmono spl np level user n m).
    Proof.
      unfold adaptive_search. do 3 (apply lsays_bind; [apply lsays_lift|intros ?]). cbv zeta.
      match goal with |- lsays _ (if ?b then _ else _) => destruct b end; [apply lower_T|apply raise_T].
    Qed.
    Lemma measure_T c : says T (measure level c).
    Proof.
      unfold measure_ecc, check_num_extrema, get_good_extrema, drop_extrema_if_extrema_jumps, drop_extrema_if_too_close,
        drop_extra_extrema_at_ends, check_dropped, check_alternate, check_separation, measure_from_extrema, extrema_curve,
        rational_curve, tref_fref_from_fref, get_fref_out, get_fref_bounds, get_omega_gw_average, run_averaging, check_ecc_monotone.
      repeat (cbv zeta; first [apply search_T | hstep]).
    Qed.
  End Level.
  Lemma measure_silent c s x : In x (fst (measure (-1)%Z c s)) -> x = few_tag.
  Proof.
    intros I. assert (S : says [few_tag] (measure (-1)%Z c)).
    { apply measure_T; [|now left]. intros msg imp _. apply lsays_dbg_silent. }
    destruct (S s x I) as [<-|[]]. reflexivity.
  Qed.
  Lemma measure_important c s x : In x (fst (measure 0%Z c s)) -> x = few_tag \/ In x important_tags.
  Proof.
    intros I. assert (S : says (few_tag :: important_tags) (measure 0%Z c)).
    { apply measure_T; [|now left]. intros msg [] H.
      - apply lsays_dbg. right. now apply H.
      - apply lsays_dbg_quiet. now left. }
    destruct (S s x I) as [<-|J]; auto.
  Qed.
  Definition prefix_tags : list string :=
    few_tag :: dropped_tag :: differ_tag :: order_tag :: close_tag :: pi_tag :: far_tag :: clean_tags.
  Lemma measure_prefix level c s w s' r : measure level c s = (w, (s', Ok r)) -> s_zero s' = Some false ->
    exists w0 wf p a s0, w = (w0 ++ wf)%list /\ from_extrema level c p a s0 = (wf, (s', Ok r)) /\
      forall x, In x w0 -> In x prefix_tags.
  Proof.
    intros H Zf. unfold measure_ecc in H.
    assert (SL : forall (A : Type) (m : lg A) s w y, alog m s = (w, y) -> lsays prefix_tags m -> forall x, In x w -> In x prefix_tags).
    { intros A m s0 w0 y E L x I. unfold alog in E. injection E as <- _. apply L. exact I. }
    wstep H as p0 t1 z1 Q1. injection Q1 as <- <- _.
    wstep H as fewp t2 z2 Q2. assert (P2 := SL _ _ _ _ _ Q2). injection Q2 as _ <- _.
    wstep H as a0 t3 z3 Q3. assert (X3 : z3 = []) by (destruct (c_midpoints c); now injection Q3). subst z3. clear Q3.
    wstep H as fewa t4 z4 Q4. assert (P4 := SL _ _ _ _ _ Q4). injection Q4 as _ <- _.
    destruct ((fewp || fewa) && c_return_zero c) eqn:F.
    { exfalso. wstep H as u5 t5 z5 Q5. injection Q5 as _ <- _. injection H as _ <- _. cbn in Zf. discriminate. }
    wstep H as u5 t5 z5 Q5. injection Q5 as <- <- _.
    wstep H as good t6 zg Q6. assert (P6 := SL _ _ _ _ _ Q6). injection Q6 as _ <- _.
    wstep H as u7 t7 z7 Q7. injection Q7 as <- <- _.
    wstep H as u8 t8 zd1 Q8. assert (P8 := SL _ _ _ _ _ Q8). injection Q8 as _ <- _.
    wstep H as u9 t9 zd2 Q9. assert (P9 := SL _ _ _ _ _ Q9). injection Q9 as _ <- _. cbv zeta in H.
    wstep H as u10 t10 z10 Q10. injection Q10 as <- <- _.
    wstep H as u11 t11 zal Q11. assert (P11 := SL _ _ _ _ _ Q11). injection Q11 as _ <- _.
    wstep H as u12 t12 zs1 Q12. assert (P12 := SL _ _ _ _ _ Q12). injection Q12 as _ <- _.
    wstep H as u13 t13 zs2 Q13. assert (P13 := SL _ _ _ _ _ Q13). injection Q13 as _ <- _.
    exists (z2 ++ z4 ++ zg ++ zd1 ++ zd2 ++ zal ++ zs1 ++ zs2)%list. do 4 eexists.
    split; [|split; [exact H|]].
    - cbn [app]. now rewrite <- !app_assoc.
    - assert (N : forall c n, lsays prefix_tags (check_num_extrema c n)).
      { intros c' n. unfold check_num_extrema. cbv zeta. repeat first [apply lsays_dbg; now left | says_step]. }
      assert (G : forall ph p a, lsays prefix_tags (get_good_extrema level ph p a)).
      { intros ph p a x I. apply good_says in I. unfold prefix_tags. do 7 right. exact I. }
      assert (D : forall n m, lsays prefix_tags (check_dropped level n m)).
      { intros n m. unfold check_dropped. repeat says_step. }
      assert (A : forall t p a, lsays prefix_tags (check_alternate level t p a)).
      { intros t p a. unfold check_alternate. cbv zeta. repeat (cbv zeta; says_step). }
      assert (S : forall t ph l, lsays prefix_tags (check_separation level t ph l)).
      { intros t ph l. unfold check_separation. cbv zeta. repeat (cbv zeta; says_step). }
      intros x. rewrite !in_app_iff. intros [I|[I|[I|[I|[I|[I|[I|I]]]]]]].
      + exact (P2 (N _ _) x I).
      + exact (P4 (N _ _) x I).
      + exact (P6 (G _ _ _) x I).
      + exact (P8 (D _ _) x I).
      + exact (P9 (D _ _) x I).
      + exact (P11 (A _ _ _) x I).
      + exact (P12 (S _ _ _) x I).
      + exact (P13 (S _ _ _) x I).
  Qed.
  Lemma measure_loud level c s w s' r : loud level -> measure level c s = (w, (s', Ok r)) -> s_zero s' = Some false ->
    (In neg_tag w <-> exists e, In e (entries (r_eccentricity r)) /\ vneg e = true) /\
    (In mono_tag w <-> exists d, s_decc s' = Some d /\ In true d).
  Proof.
    intros L H Zf. destruct (measure_prefix _ _ _ _ _ _ H Zf) as (w0 & wf & p & a & s0 & -> & F & PT).
    apply from_says in F; [|exact L]. destruct F as (wo & wm & wn & -> & O1 & M1 & M2 & N1 & N2).
    rewrite <- M2, <- N2.
    assert (X : forall x, x = neg_tag \/ x = mono_tag -> ~ In x w0 /\ ~ In x wo).
    { intros x J. split; intros I; [apply PT in I|apply O1 in I]; cbn in I; destruct J; subst x; intuition discriminate. }
    destruct (X neg_tag (or_introl eq_refl)) as [X1 X2]. destruct (X mono_tag (or_intror eq_refl)) as [X3 X4].
    rewrite !in_app_iff. split; split; try tauto.
    - intros [I|[I|[I|I]]]; try contradiction; [|exact I]. apply M1 in I. discriminate I.
    - intros [I|[I|[I|I]]]; try contradiction; [exact I|]. apply N1 in I. discriminate I.
  Qed.

End Says.
