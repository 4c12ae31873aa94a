(** The sample selection on the command line: the parser and its grammar agree. *)
From Verif Require Import Base BaseLemmas PostModel PostSpec.
From Coq Require Import Lia Ascii ZArith.
Open Scope list_scope.
Open Scope nat_scope.

(** *** Characters *)
Ltac all_chars c := destruct c as [[] [] [] [] [] [] [] []]; reflexivity.
Lemma white_ok c : white c = is_space c. Proof. all_chars c. Qed.
Lemma digit_ok c : digit c = digit_of c. Proof. all_chars c. Qed.
Lemma small_ok c : small c = lower_char c. Proof. all_chars c. Qed.
Lemma lower_space c : is_space (lower_char c) = is_space c. Proof. all_chars c. Qed.
Lemma lower_digit c : digit_of (lower_char c) = digit_of c. Proof. all_chars c. Qed.
Definition fixed (x : ascii) : Prop := forall c, Ascii.eqb (lower_char c) x = Ascii.eqb c x.
Lemma fixed_colon : fixed ":". Proof. intros c. all_chars c. Qed.
Lemma fixed_comma : fixed ",". Proof. intros c. all_chars c. Qed.
Lemma fixed_under : fixed "_". Proof. intros c. all_chars c. Qed.
Lemma fixed_plus : fixed "+". Proof. intros c. all_chars c. Qed.
Lemma fixed_minus : fixed "-". Proof. intros c. all_chars c. Qed.
Lemma digit_not_space c d : digit_of c = Some d -> white c = false.
Proof. destruct c as [[] [] [] [] [] [] [] []]; cbn; intros H; try discriminate; reflexivity. Qed.
Lemma digit_not_sign c d : digit_of c = Some d -> Ascii.eqb c "-" = false /\ Ascii.eqb c "+" = false /\ Ascii.eqb c "_" = false.
Proof. destruct c as [[] [] [] [] [] [] [] []]; cbn; intros H; try discriminate; auto. Qed.

Lemma lower_chars s : list_ascii_of_string (lower s) = map lower_char (list_ascii_of_string s).
Proof. induction s; cbn; congruence. Qed.
Lemma of_to l : list_ascii_of_string (string_of_list_ascii l) = l.
Proof. apply list_ascii_of_string_of_list_ascii. Qed.
Lemma string_eq_chars s t : String.eqb s t = true <-> list_ascii_of_string s = list_ascii_of_string t.
Proof.
  rewrite String.eqb_eq. split; [congruence|]. intros H.
  rewrite <- (string_of_list_ascii_of_string s), <- (string_of_list_ascii_of_string t). congruence.
Qed.

(** *** strip *)
Lemma lstrip_spec l : exists a, l = a ++ lstrip l /\ blank a /\ forall x y, lstrip l = x :: y -> white x = false.
Proof.
  induction l as [|c l (a & E & B & N)]; cbn; [exists []; repeat split; [constructor|discriminate]|].
  destruct (is_space c) eqn:S; rewrite <- white_ok in S.
  - exists (c :: a). cbn. split; [congruence|]. split; [constructor; auto|auto].
  - exists []. cbn. split; [auto|]. split; [constructor|]. intros x y H. injection H as <- <-. exact S.
Qed.
Lemma blank_rev l : blank l -> blank (rev l).
Proof. unfold blank. rewrite !Forall_forall. intros H x X. apply H. apply in_rev. exact X. Qed.
Definition tight (b : list ascii) : Prop := (forall x y, b = x :: y -> white x = false) /\ (forall x y, b = y ++ [x] -> white x = false).
Lemma strip_spec l : exists a c, l = a ++ strip_chars l ++ c /\ blank a /\ blank c /\ tight (strip_chars l).
Proof.
  unfold strip_chars. destruct (lstrip_spec l) as (a & E & B & N). destruct (lstrip_spec (rev (lstrip l))) as (c & E' & B' & N').
  exists a, (rev c).
  assert (X : lstrip l = rev (lstrip (rev (lstrip l))) ++ rev c).
  { rewrite <- rev_app_distr, <- E', rev_involutive. reflexivity. }
  split; [rewrite <- X; exact E|]. split; [exact B|]. split; [apply blank_rev; exact B'|]. split.
  - intros x y H. rewrite H in X. cbn in X. exact (N x _ X).
  - intros x y H. apply (f_equal (@rev _)) in H. rewrite rev_involutive, rev_app_distr in H. cbn in H. exact (N' x _ H).
Qed.
Lemma lstrip_blank a l : blank a -> lstrip (a ++ l) = lstrip l.
Proof. intros H. induction H as [|c a S _ IH]; cbn; [auto|]. rewrite <- white_ok, S. exact IH. Qed.
Lemma lstrip_tight b c : (forall x y, b = x :: y -> white x = false) -> b <> [] -> lstrip (b ++ c) = b ++ c.
Proof. destruct b as [|x b]; [contradiction|]. intros H _. cbn. rewrite <- white_ok, (H x b eq_refl). reflexivity. Qed.
Lemma strip_unique a b c : blank a -> blank c -> tight b -> strip_chars (a ++ b ++ c) = b.
Proof.
  intros A C (T1 & T2). unfold strip_chars. rewrite (lstrip_blank a (b ++ c) A). destruct b as [|x b].
  - cbn. rewrite <- (app_nil_r c), lstrip_blank by exact C. reflexivity.
  - rewrite lstrip_tight by (auto; discriminate). rewrite rev_app_distr, lstrip_blank by (apply blank_rev; exact C).
    rewrite <- (app_nil_r (rev (x :: b))), lstrip_tight.
    + rewrite app_nil_r. apply rev_involutive.
    + intros z y H. apply (f_equal (@rev _)) in H. rewrite rev_involutive in H. cbn in H. exact (T2 z (rev y) H).
    + intros H. apply (f_equal (@rev _)) in H. rewrite rev_involutive in H. discriminate.
Qed.
Lemma lstrip_map l : lstrip (map lower_char l) = map lower_char (lstrip l).
Proof. induction l as [|c l IH]; cbn; [auto|]. rewrite lower_space. destruct (is_space c); auto. Qed.
Lemma strip_map l : strip_chars (map lower_char l) = map lower_char (strip_chars l).
Proof. unfold strip_chars. rewrite lstrip_map, <- map_rev, lstrip_map, map_rev. reflexivity. Qed.
Lemma strip_nil l : strip_chars l = [] <-> blank l.
Proof.
  split.
  - intros E. destruct (strip_spec l) as (a & c & H & A & C & _). rewrite E in H. cbn in H. rewrite H. apply Forall_app. auto.
  - intros B. rewrite <- (app_nil_r l). change (l ++ []) with (l ++ [] ++ []). apply strip_unique; auto; [constructor|].
    split; intros x y H; [discriminate|destruct y; discriminate].
Qed.

(** *** Integers *)
Lemma two_step {A} (Q : list A -> Prop) : Q [] -> (forall a, Q [a]) -> (forall a b l, Q l -> Q (b :: l) -> Q (a :: b :: l)) -> forall l, Q l.
Proof.
  intros H0 H1 H2 l. assert (G : Q l /\ forall a, Q (a :: l)); [|apply G].
  induction l as [|b l (IH1 & IH2)]; split; auto.
Qed.
Lemma digits_from_num l : forall pre acc v, numeral pre acc -> digits_from acc l = Ok v -> numeral (pre ++ l) v.
Proof.
  induction l as [|a|a b l IHl IHb] using two_step; intros pre acc v N; cbn [digits_from].
  - intros H. apply Ok_inj in H. subst. rewrite app_nil_r. exact N.
  - destruct (digit_of a) as [d|] eqn:D; [intros H; apply Ok_inj in H; subst; apply next_digit; [auto|rewrite digit_ok; auto]|]. destruct (Ascii.eqb a "_"); discriminate.
  - destruct (digit_of a) as [d|] eqn:D.
    + intros H. change (a :: b :: l) with ([a] ++ b :: l). rewrite app_assoc. eapply IHb; [|exact H]. apply next_digit; [auto|rewrite digit_ok; auto].
    + destruct (Ascii.eqb_spec a "_") as [->|]; [|discriminate]. destruct (digit_of b) as [d|] eqn:E; [|discriminate].
      intros H. change ("_"%char :: b :: l) with (["_"%char; b] ++ l). rewrite app_assoc. eapply IHl; [|exact H]. apply grouped_digit; [auto|rewrite digit_ok; auto].
Qed.
Lemma digits_from_app l r : forall acc v, digits_from acc l = Ok v -> digits_from acc (l ++ r) = digits_from v r.
Proof.
  induction l as [|a|a b l IHl IHb] using two_step; intros acc v; cbn [digits_from app].
  - intros H. apply Ok_inj in H. subst. reflexivity.
  - destruct (digit_of a) as [d|] eqn:D; [intros H; apply Ok_inj in H; subst; reflexivity|]. destruct (Ascii.eqb a "_"); discriminate.
  - destruct (digit_of a) as [d|] eqn:D; [apply IHb|].
    destruct (Ascii.eqb_spec a "_") as [->|]; [|discriminate]. destruct (digit_of b) as [d|] eqn:E; [|discriminate]. apply IHl.
Qed.
Lemma digits_app l r v : digits l = Ok v -> digits (l ++ r) = digits_from v r.
Proof. destruct l as [|c l]; cbn; [discriminate|]. destruct (digit_of c); [|discriminate]. apply digits_from_app. Qed.
Lemma digits_iff l v : digits l = Ok v <-> numeral l v.
Proof.
  split.
  - destruct l as [|c l]; cbn; [discriminate|]. destruct (digit_of c) as [d|] eqn:D; [|discriminate]. intros H.
    change (c :: l) with ([c] ++ l). eapply digits_from_num; [constructor; rewrite digit_ok; exact D|exact H].
  - induction 1 as [c d D|l v c d N IH D|l v c d N IH D]; rewrite digit_ok in D.
    + cbn. rewrite D. reflexivity.
    + rewrite (digits_app _ _ _ IH). cbn. rewrite D. reflexivity.
    + rewrite (digits_app _ _ _ IH). cbn. rewrite D. reflexivity.
Qed.
Lemma numeral_ends l v : numeral l v -> exists c d, (exists r, l = c :: r) /\ digit_of c = Some d /\ exists x y e, l = y ++ [x] /\ digit_of x = Some e.
Proof.
  induction 1 as [c d D|l v c d N (c0 & d0 & (r & ->) & D0 & _) D|l v c d N (c0 & d0 & (r & ->) & D0 & _) D]; rewrite digit_ok in D.
  - exists c, d. split; [eauto|]. split; [auto|]. exists c, [], d. auto.
  - exists c0, d0. split; [eexists; reflexivity|]. split; [auto|]. exists c, (c0 :: r), d. auto.
  - exists c0, d0. split; [eexists; reflexivity|]. split; [auto|]. exists c, (c0 :: r ++ ["_"%char]), d. split; [cbn; rewrite <- app_assoc; reflexivity|auto].
Qed.
Lemma last_unique {A} (y1 y2 : list A) x1 x2 : y1 ++ [x1] = y2 ++ [x2] -> x1 = x2.
Proof. intros H. apply app_inj_tail in H. apply H. Qed.
Lemma numeral_tight s l v : numeral l v -> (forall x, s = Some x -> white x = false) -> tight (match s with Some x => x :: l | None => l end).
Proof.
  intros N S. destruct (numeral_ends l v N) as (c & d & (r & ->) & D & x & y & e & E & Dx). split.
  - destruct s as [z|]; intros x' y' H; injection H as <- <-; [auto|exact (digit_not_space _ _ D)].
  - destruct s as [z|]; intros x' y' H.
    + rewrite E in H. change (z :: y ++ [x]) with ((z :: y) ++ [x]) in H. rewrite <- (last_unique _ _ _ _ H). exact (digit_not_space _ _ Dx).
    + rewrite E in H. rewrite <- (last_unique _ _ _ _ H). exact (digit_not_space _ _ Dx).
Qed.
Lemma signed_tight l v : signed l v -> tight l.
Proof.
  intros [l' v' N|l' v' N|l' v' N].
  - apply (numeral_tight None _ _ N). discriminate.
  - apply (numeral_tight (Some "+"%char) _ _ N). intros x H. injection H as <-. reflexivity.
  - apply (numeral_tight (Some "-"%char) _ _ N). intros x H. injection H as <-. reflexivity.
Qed.
(** int() on characters. *)
Definition int_chars (l : list ascii) : res Z := py_int (string_of_list_ascii l).
Lemma int_chars_iff l v : int_chars l = Ok v <-> int_text l v.
Proof.
  unfold int_chars, py_int. rewrite of_to. split.
  - intros H. destruct (strip_spec l) as (a & c & E & A & C & _). exists a, (strip_chars l), c. split; [auto|]. split; [auto|]. split; [|auto].
    destruct (strip_chars l) as [|x r]; [discriminate|]. destruct (Ascii.eqb_spec x "-") as [->|].
    + apply bind_ok in H. destruct H as (w & D & H). apply Ok_inj in H. subst. apply minus. apply digits_iff. exact D.
    + destruct (Ascii.eqb_spec x "+") as [->|]; [apply plus|apply plain]; apply digits_iff; exact H.
  - intros (a & b & c & -> & A & S & C). rewrite (strip_unique a b c A C (signed_tight b v S)).
    destruct S as [l v N|l v N|l v N].
    + destruct (numeral_ends l v N) as (x & d & (r & ->) & D & _). destruct (digit_not_sign x d D) as (-> & -> & _). apply digits_iff. exact N.
    + cbn. apply digits_iff in N. rewrite N. reflexivity.
    + cbn. apply digits_iff in N. rewrite N. reflexivity.
Qed.
Lemma digits_from_err l : forall acc e, digits_from acc l = Err e -> e = ValueError.
Proof.
  induction l as [|a|a b l IHl IHb] using two_step; intros acc e; cbn [digits_from]; [discriminate| |].
  - destruct (digit_of a); [discriminate|]. destruct (Ascii.eqb a "_"); congruence.
  - destruct (digit_of a); [apply IHb|]. destruct (Ascii.eqb a "_"); [|congruence]. destruct (digit_of b); [apply IHl|congruence].
Qed.
Lemma py_int_err s e : py_int s = Err e -> e = ValueError.
Proof.
  unfold py_int. assert (D : forall l e, digits l = Err e -> e = ValueError).
  { intros [|c l] x; cbn; [congruence|]. destruct (digit_of c); [apply digits_from_err|congruence]. }
  destruct (strip_chars _) as [|c r]; [congruence|]. destruct (Ascii.eqb c "-"); [|destruct (Ascii.eqb c "+"); apply D].
  destruct (digits r) eqn:E; cbn; [discriminate|]. intros H. injection H as <-. exact (D _ _ E).
Qed.
Lemma digits_from_lower l : forall acc, digits_from acc (map lower_char l) = digits_from acc l.
Proof.
  induction l as [|a|a b l IHl IHb] using two_step; intros acc; cbn [digits_from map] in *; [auto| |].
  - rewrite lower_digit, fixed_under. reflexivity.
  - rewrite !lower_digit. destruct (digit_of a).
    + rewrite <- IHb, lower_digit. reflexivity.
    + rewrite (fixed_under a). destruct (Ascii.eqb a "_"); [|reflexivity]. destruct (digit_of b); [apply IHl|reflexivity].
Qed.
Lemma digits_lower l : digits (map lower_char l) = digits l.
Proof. destruct l as [|c l]; cbn; [auto|]. rewrite lower_digit. destruct (digit_of c); [apply digits_from_lower|auto]. Qed.
Lemma int_lower l : int_chars (map lower_char l) = int_chars l.
Proof.
  unfold int_chars, py_int. rewrite !of_to, strip_map. destruct (strip_chars l) as [|c r]; cbn [map]; [auto|].
  rewrite fixed_minus, fixed_plus, digits_lower. change (lower_char c :: map lower_char r) with (map lower_char (c :: r)). rewrite digits_lower. reflexivity.
Qed.

(** *** split *)
Lemma split_nonempty c l : split_chars c l <> [].
Proof. destruct l as [|d l]; cbn; [discriminate|]. destruct (Ascii.eqb d c); [discriminate|]. destruct (split_chars c l); discriminate. Qed.
Lemma split_joined c l : joined c (split_chars c l) = l /\ forall a, In a (split_chars c l) -> free_of c a.
Proof.
  induction l as [|d l (IH & F)]; cbn.
  - split; [auto|]. intros a [<-|[]] [].
  - destruct (Ascii.eqb_spec d c) as [->|D].
    + pose proof (split_nonempty c l). split; [destruct (split_chars c l); [contradiction|cbn in *; congruence]|].
      intros a [<-|A]; [intros []|auto].
    + destruct (split_chars c l) as [|k ks] eqn:E; [contradiction (split_nonempty c l)|]. split.
      * destruct ks; cbn in *; congruence.
      * intros a [<-|A]; [|apply F; right; exact A]. intros [X|X]; [congruence|]. exact (F k (or_introl eq_refl) X).
Qed.
Lemma split_free c l : free_of c l -> split_chars c l = [l].
Proof.
  induction l as [|d l IH]; cbn; [auto|]. intros H. destruct (Ascii.eqb_spec d c) as [->|D]; [exfalso; apply H; left; auto|].
  rewrite IH; [auto|]. intros X. apply H. right. exact X.
Qed.
Lemma split_app c a l : free_of c a -> split_chars c (a ++ c :: l) = a :: split_chars c l.
Proof.
  induction a as [|d a IH]; cbn; intros H; [rewrite Ascii.eqb_refl; auto|].
  destruct (Ascii.eqb_spec d c) as [->|D]; [exfalso; apply H; left; auto|]. rewrite IH; [auto|]. intros X. apply H. right. exact X.
Qed.
Lemma split_unique c parts : parts <> [] -> (forall a, In a parts -> free_of c a) -> split_chars c (joined c parts) = parts.
Proof.
  induction parts as [|a [|b r] IH]; intros N F; [contradiction| |].
  - apply split_free. apply F. left; auto.
  - change (joined c (a :: b :: r)) with (a ++ c :: joined c (b :: r)). rewrite split_app by (apply F; left; auto). f_equal. apply IH; [discriminate|].
    intros x X. apply F. right. exact X.
Qed.
Lemma split_lower c l : fixed c -> split_chars c (map lower_char l) = map (map lower_char) (split_chars c l).
Proof.
  intros Fx. induction l as [|d l IH]; cbn; [auto|]. rewrite Fx, IH. destruct (Ascii.eqb d c); [auto|]. destruct (split_chars c l); reflexivity.
Qed.
Lemma split_many c l : In c l <-> 2 <= length (split_chars c l).
Proof.
  split.
  - induction l as [|d l IH]; [intros []|]. intros H. cbn. destruct (Ascii.eqb_spec d c) as [->|D].
    + pose proof (split_nonempty c l). destruct (split_chars c l); [contradiction|cbn; lia].
    + destruct H as [H|H]; [contradiction|]. specialize (IH H). destruct (split_chars c l); cbn in *; lia.
  - intros H. destruct (in_dec ascii_dec c l) as [I|N]; [exact I|]. rewrite split_free in H by exact N. cbn in H. lia.
Qed.
Lemma contains_lower c l : fixed c -> existsb (Ascii.eqb c) (map lower_char l) = true <-> In c l.
Proof.
  intros F. rewrite existsb_exists. split.
  - intros (x & X & E). apply Ascii.eqb_eq in E. subst x. apply in_map_iff in X. destruct X as (y & E & Y).
    assert (G : Ascii.eqb y c = true) by (rewrite <- F, E; apply Ascii.eqb_refl). apply Ascii.eqb_eq in G. subst y. exact Y.
  - intros I. exists c. split; [|apply Ascii.eqb_refl]. apply in_map_iff. exists c. split; [|exact I].
    apply Ascii.eqb_eq. rewrite F. apply Ascii.eqb_refl.
Qed.

(** *** range *)
Lemma nth_seq_map {A} (g : nat -> A) n k x : nth_error (map g (seq 0 n)) k = Some x <-> k < n /\ x = g k.
Proof.
  rewrite nth_error_map. destruct (Nat.lt_ge_cases k n) as [L|L].
  - rewrite (nth_error_nth' (seq 0 n) 0) by (rewrite seq_length; lia). rewrite seq_nth by lia. cbn. split; [intros H; injection H as <-; auto|intros (_ & ->); auto].
  - assert (N : nth_error (seq 0 n) k = None) by (apply nth_error_None; rewrite seq_length; lia). rewrite N. cbn. split; [discriminate|lia].
Qed.
Lemma count_iff m step k : (0 < step)%Z -> k < Z.to_nat ((m + step - 1) / step) <-> (Z.of_nat k * step < m)%Z.
Proof.
  intros S. assert (E : k < Z.to_nat ((m + step - 1) / step) <-> (Z.of_nat k + 1 <= (m + step - 1) / step)%Z) by lia. rewrite E. split.
  - intros H. pose proof (Z.mul_div_le (m + step - 1) step S). nia.
  - intros H. apply Z.div_le_lower_bound; [exact S|]. nia.
Qed.
Lemma range_iff start stop step l : range start stop step = Ok l <-> range_of start stop step l.
Proof.
  assert (G : step <> 0%Z -> forall k x, nth_error (map (fun k => start + Z.of_nat k * step)%Z (seq 0 (range_length start stop step))) k = Some x <->
    (x = start + Z.of_nat k * step)%Z /\ (if (0 <? step)%Z then (x < stop)%Z else (stop < x)%Z)).
  { intros N k x. rewrite nth_seq_map. unfold range_length. destruct (Z.ltb_spec 0 step) as [S|S].
    - rewrite count_iff by exact S. lia.
    - replace (start - stop + - step - 1)%Z with ((start - stop) + (- step) - 1)%Z by lia. rewrite count_iff by lia. lia. }
  unfold range, range_of. destruct (Z.eqb_spec step 0) as [->|N].
  - split; [discriminate|]. intros (H & _). contradiction.
  - split.
    + intros H. apply Ok_inj in H. subst l. split; [exact N|]. exact (G N).
    + intros (_ & H). f_equal. apply list_ext. intros k. specialize (G N k).
      destruct (nth_error (map _ _) k) as [x|] eqn:E1.
      * symmetry. apply H. apply G. reflexivity.
      * destruct (nth_error l k) as [x|] eqn:E2; [|reflexivity]. apply H in E2. apply G in E2. discriminate.
Qed.

(** *** The whole parser *)
Definition read (a : list ascii) : string := string_of_list_ascii (map lower_char a).
Lemma read_int a : py_int (read a) = int_chars a.
Proof. rewrite <- int_lower. reflexivity. Qed.
Lemma read_empty a : String.eqb (read a) "" = match a with [] => true | _ => false end.
Proof. destruct a; reflexivity. Qed.
Lemma list_parts l : match map_res (fun x => py_int (strip x)) (filter (fun x => negb (String.eqb (strip x) "")) (map read l)) with
  | Ok v => forall r, listed l r <-> r = v | Err e => e = ValueError /\ forall r, ~ listed l r end.
Proof.
  assert (I : forall a, py_int (strip (read a)) = int_chars a).
  { intros a. rewrite <- read_int. unfold py_int, strip, read. rewrite !of_to.
    destruct (strip_spec (map lower_char a)) as (u & w & E & U & W & T).
    assert (X : strip_chars (strip_chars (map lower_char a)) = strip_chars (map lower_char a)).
    { set (b := strip_chars (map lower_char a)) in *. rewrite <- (app_nil_r b) at 1. change (b ++ []) with ([] ++ b ++ []). apply strip_unique; auto; constructor. }
    rewrite X. reflexivity. }
  assert (B : forall a, String.eqb (strip (read a)) "" = true <-> blank a).
  { intros a. rewrite string_eq_chars. unfold strip, read. rewrite !of_to, strip_map. cbn. rewrite <- strip_nil.
    destruct (strip_chars a); cbn; split; congruence. }
  assert (NB : forall a v, int_text a v -> ~ blank a).
  { intros a v H X. apply int_chars_iff in H. unfold int_chars, py_int in H. rewrite of_to in H. apply strip_nil in X. rewrite X in H. discriminate. }
  induction l as [|a l IH]; cbn [map filter map_res].
  - intros r. split; [intros H; inversion H; auto|intros ->; constructor].
  - destruct (String.eqb (strip (read a)) "") eqn:E; cbn [negb].
    + apply B in E. destruct (map_res _ _) as [v|e].
      * intros r. rewrite <- IH. split; [|constructor; auto]. intros H. inversion H; subst; auto. exfalso. eapply NB; eauto.
      * destruct IH as (-> & IH). split; [auto|]. intros r H. inversion H; subst; [eapply IH; eauto|]. eapply NB; eauto.
    + assert (NBa : ~ blank a) by (intros X; apply B in X; congruence). cbn [map_res]. rewrite I. destruct (int_chars a) as [v|e] eqn:Ei; cbn [bind].
      * destruct (map_res _ _) as [w|e]; cbn.
        -- intros r. split.
           ++ intros H. inversion H as [|? ? ? X|? v' ? r' Hv Hl]; subst; [contradiction|]. apply int_chars_iff in Hv. rewrite Ei in Hv. injection Hv as ->. f_equal. apply IH. exact Hl.
           ++ intros ->. constructor; [apply int_chars_iff; exact Ei|]. apply IH. reflexivity.
        -- destruct IH as (-> & IH). split; [auto|]. intros r H. inversion H; subst; [contradiction|]. eapply IH; eauto.
      * split; [exact (py_int_err _ _ Ei)|]. intros r H. inversion H as [|? ? ? X|? v' ? r' Hv Hl]; subst; [contradiction|]. apply int_chars_iff in Hv. congruence.
Qed.
(** The part of the parser after strip, on characters. *)
Definition parse_tight (b : list ascii) : res (option (list Z)) :=
  if existsb (String.eqb (read b)) ["all"; "none"]%string then Ok None
  else if existsb (Ascii.eqb ":") (map lower_char b) then
    match split_chars ":" b with
    | a :: b :: c =>
        match c with
        | [] | [_] =>
            do start <- match a with [] => Ok 0%Z | _ => int_chars a end;
            do stop <- int_chars b;
            do step <- match c with [[]] => Ok 1%Z | [x] => int_chars x | _ => Ok 1%Z end;
            do l <- range start stop step; Ok (Some l)
        | _ => Err ValueError
        end
    | _ => Err ValueError
    end
  else if existsb (Ascii.eqb ",") (map lower_char b) then
    do l <- map_res (fun x => py_int (strip x)) (filter (fun x => negb (String.eqb (strip x) "")) (map read (split_chars "," b)));
    Ok (Some l)
  else do v <- int_chars b; Ok (Some [v]).
Lemma parse_tight_ok s : parse_samples (Some s) = parse_tight (strip_chars (list_ascii_of_string s)).
Proof.
  unfold parse_samples, parse_tight. set (b := strip_chars (list_ascii_of_string s)).
  assert (T : list_ascii_of_string (lower (strip s)) = map lower_char b) by (rewrite lower_chars; unfold strip; rewrite of_to; reflexivity).
  assert (R : lower (strip s) = read b) by (unfold read; rewrite <- T, string_of_list_ascii_of_string; reflexivity).
  assert (Sp : forall c, fixed c -> split c (lower (strip s)) = map read (split_chars c b)).
  { intros c F. unfold split. rewrite T, (split_lower c b F), map_map. reflexivity. }
  rewrite (Sp _ fixed_colon), (Sp _ fixed_comma). unfold contains. rewrite T, R, read_int.
  destruct (existsb (String.eqb (read b)) _); [reflexivity|]. destruct (existsb (Ascii.eqb ":") _); [|reflexivity].
  destruct (split_chars ":" b) as [|x [|y z]]; cbn [map]; [reflexivity|reflexivity|].
  rewrite read_empty, !read_int. destruct z as [|z [|? ?]]; cbn [map]; [destruct x; reflexivity| |reflexivity].
  rewrite read_empty, read_int. destruct x; destruct z; reflexivity.
Qed.
Lemma all_none b : existsb (String.eqb (read b)) ["all"; "none"]%string = true <-> same_letters b "all" \/ same_letters b "none".
Proof.
  cbn [existsb]. rewrite !orb_true_iff, !string_eq_chars. unfold read, same_letters. rewrite of_to, (map_ext _ _ small_ok). intuition discriminate.
Qed.
Lemma lettered_plain b s : same_letters b s -> (forall c, fixed c -> In c b -> In c (list_ascii_of_string s)).
Proof. unfold same_letters. intros E c F I. rewrite <- E, (map_ext _ _ small_ok). apply in_map_iff. exists c. split; [apply Ascii.eqb_eq; rewrite F; apply Ascii.eqb_refl|exact I]. Qed.
Lemma none_here b c : fixed c -> In c b -> ~ In c (list_ascii_of_string "all") -> ~ In c (list_ascii_of_string "none") ->
  existsb (String.eqb (read b)) ["all"; "none"]%string = false.
Proof.
  intros F I A N. destruct (existsb _ _) eqn:E; [|reflexivity]. apply all_none in E. exfalso.
  destruct E as [E|E]; [apply A|apply N]; exact (lettered_plain b _ E c F I).
Qed.
Lemma start_iff a v : match a with [] => Ok 0%Z | _ => int_chars a end = Ok v <-> (a = [] /\ v = 0%Z) \/ int_text a v.
Proof.
  destruct a as [|x a].
  - split; [intros H; apply Ok_inj in H; auto|]. intros [(_ & ->)|H]; [auto|]. apply int_chars_iff in H. discriminate.
  - rewrite int_chars_iff. split; [auto|]. intros [(H & _)|H]; [discriminate|auto].
Qed.
Lemma step_iff a v : match a with [] => Ok 1%Z | _ => int_chars a end = Ok v <-> (a = [] /\ v = 1%Z) \/ int_text a v.
Proof.
  destruct a as [|x a].
  - split; [intros H; apply Ok_inj in H; auto|]. intros [(_ & ->)|H]; [auto|]. apply int_chars_iff in H. discriminate.
  - rewrite int_chars_iff. split; [auto|]. intros [(H & _)|H]; [discriminate|auto].
Qed.
Lemma joined_in c parts : 2 <= length parts -> In c (joined c parts).
Proof. destruct parts as [|a [|b r]]; cbn; [lia|lia|]. intros _. apply in_or_app. right. left. reflexivity. Qed.
Lemma joined_free c d parts : c <> d -> (forall a, In a parts -> free_of d a) -> free_of d (joined c parts).
Proof.
  intros N. induction parts as [|a [|b r] IH]; intros F; [intros []|exact (F a (or_introl eq_refl))|].
  intros H. change (joined c (a :: b :: r)) with (a ++ c :: joined c (b :: r)) in H. apply in_app_or in H. destruct H as [H|[H|H]]; [exact (F a (or_introl eq_refl) H)|contradiction|].
  apply IH in H; auto. intros x X. apply F. right. exact X.
Qed.
Lemma parse_chosen b r : parse_tight b = Ok r <-> chosen b r.
Proof.
  split.
  - unfold parse_tight. destruct (existsb (String.eqb (read b)) _) eqn:A.
    { intros H. apply Ok_inj in H. subst. apply every_sample. apply all_none. exact A. }
    destruct (existsb (Ascii.eqb ":") _) eqn:C.
    { destruct (split_joined ":" b) as (J & F). destruct (split_chars ":" b) as [|x [|y z]]; [discriminate|discriminate|].
      destruct z as [|z [|? ?]]; [| |discriminate]; intros H.
      - apply bind_ok in H. destruct H as (start & Hs & H). apply bind_ok in H. destruct H as (stop & Ht & H).
        apply bind_ok in H. destruct H as (step & Hp & H). apply Ok_inj in Hp. subst step. apply bind_ok in H. destruct H as (l & Hl & H). apply Ok_inj in H. subst r.
        rewrite <- J. apply start_iff in Hs. apply int_chars_iff in Ht. apply range_iff in Hl.
        apply (two_parts x y start stop); auto; apply F; [left|right; left]; reflexivity.
      - apply bind_ok in H. destruct H as (start & Hs & H). apply bind_ok in H. destruct H as (stop & Ht & H).
        apply bind_ok in H. destruct H as (step & Hp & H). apply bind_ok in H. destruct H as (l & Hl & H). apply Ok_inj in H. subst r.
        rewrite <- J. apply start_iff in Hs. apply int_chars_iff in Ht. apply range_iff in Hl.
        assert (Hp' : match z with [] => Ok 1%Z | _ => int_chars z end = Ok step) by (destruct z; exact Hp). apply step_iff in Hp'.
        apply (three_parts x y z start stop step); auto; apply F; [left|right; left|right; right; left]; reflexivity. }
    assert (NC : free_of ":" b) by (intros X; apply (contains_lower _ b fixed_colon) in X; congruence).
    destruct (existsb (Ascii.eqb ",") _) eqn:D.
    { intros H. apply bind_ok in H. destruct H as (l & Hl & H). apply Ok_inj in H. subst r.
      pose proof (list_parts (split_chars "," b)) as G. rewrite Hl in G.
      destruct (split_joined "," b) as (J & F). assert (Jc : forall a, In a (split_chars "," b) -> free_of ":" a).
      { intros a I X. apply NC. rewrite <- J. clear - I X. induction (split_chars "," b) as [|u [|w t] IH]; [destruct I| |].
        - destruct I as [->|[]]. exact X.
        - change (joined "," (u :: w :: t)) with (u ++ ","%char :: joined "," (w :: t)). apply in_or_app. destruct I as [->|I]; [auto|]. right. right. apply IH. exact I. }
      rewrite <- J. apply some_samples.
      - apply split_many. apply (contains_lower _ b fixed_comma). exact D.
      - intros a I. split; auto.
      - apply G. reflexivity. }
    intros H. apply bind_ok in H. destruct H as (v & Hv & H). apply Ok_inj in H. subst r. apply one_sample; auto; [|apply int_chars_iff; exact Hv].
    intros X. apply (contains_lower _ b fixed_comma) in X. congruence.
  - intros H. destruct H as [l H|l v N1 N2 H|parts l L F H|a b start stop l Fa Fb Ha Hb Hl|a b c start stop step l Fa Fb Fc Ha Hb Hc Hl]; unfold parse_tight.
    + apply all_none in H. rewrite H. reflexivity.
    + destruct (existsb (String.eqb (read l)) _) eqn:A.
      { exfalso. apply int_chars_iff in H. rewrite <- int_lower in H. apply all_none in A. destruct A as [A|A]; unfold same_letters in A; rewrite (map_ext _ _ small_ok) in A; rewrite A in H; discriminate. }
      destruct (existsb (Ascii.eqb ":") _) eqn:C; [apply (contains_lower _ l fixed_colon) in C; contradiction|].
      destruct (existsb (Ascii.eqb ",") _) eqn:D; [apply (contains_lower _ l fixed_comma) in D; contradiction|].
      apply int_chars_iff in H. rewrite H. reflexivity.
    + pose proof (joined_in "," parts L) as I. rewrite (none_here _ _ fixed_comma I) by (cbn; intuition discriminate).
      destruct (existsb (Ascii.eqb ":") _) eqn:C.
      { apply (contains_lower _ _ fixed_colon) in C. exfalso. revert C. apply joined_free; [discriminate|]. intros a A. apply F. exact A. }
      apply (contains_lower _ _ fixed_comma) in I. rewrite I. rewrite split_unique; [|destruct parts; [cbn in L; lia|discriminate]|intros a A; apply F; exact A].
      pose proof (list_parts parts) as G. destruct (map_res _ _) as [w|e]; [|destruct G as (_ & G); exfalso; exact (G l H)]. apply G in H. subst. reflexivity.
    + pose proof (joined_in ":" [a; b] ltac:(cbn; lia)) as I. rewrite (none_here _ _ fixed_colon I) by (cbn; intuition discriminate).
      apply (contains_lower _ _ fixed_colon) in I. rewrite I. rewrite split_unique; [|discriminate|intros x [<-|[<-|[]]]; auto].
      apply start_iff in Ha. apply int_chars_iff in Hb. apply range_iff in Hl. rewrite Ha, Hb. cbn [bind]. rewrite Hl. reflexivity.
    + pose proof (joined_in ":" [a; b; c] ltac:(cbn; lia)) as I. rewrite (none_here _ _ fixed_colon I) by (cbn; intuition discriminate).
      apply (contains_lower _ _ fixed_colon) in I. rewrite I. rewrite split_unique; [|discriminate|intros x [<-|[<-|[<-|[]]]]; auto].
      apply start_iff in Ha. apply int_chars_iff in Hb. apply range_iff in Hl. apply step_iff in Hc. rewrite Ha, Hb. cbn [bind].
      replace (match c with [] => Ok 1%Z | _ :: _ => int_chars c end) with (Ok step) by (destruct c; auto). cbn [bind]. rewrite Hl. reflexivity.
Qed.
Lemma parse_selects s r : parse_samples (Some s) = Ok r <-> selects s r.
Proof.
  rewrite parse_tight_ok, parse_chosen. unfold selects. split.
  - intros H. destruct (strip_spec (list_ascii_of_string s)) as (a & c & E & A & C & T1 & T2). exists a, (strip_chars (list_ascii_of_string s)), c. auto 10.
  - intros (a & b & c & E & A & C & T1 & T2 & H). rewrite E, strip_unique; auto. split; auto.
Qed.
Lemma parse_err s e : parse_samples (Some s) = Err e -> e = ValueError.
Proof.
  assert (I : forall l x, int_chars l = Err x -> x = ValueError) by (intros l x; apply py_int_err).
  rewrite parse_tight_ok. unfold parse_tight. destruct (existsb (String.eqb _) _); [discriminate|]. destruct (existsb (Ascii.eqb ":") _).
  - destruct (split_chars _ _) as [|x [|y z]]; try congruence.
    assert (G : forall q : res Z, (forall u, q = Err u -> u = ValueError) -> (do start <- match x with [] => Ok 0%Z | _ => int_chars x end; do stop <- int_chars y; do step <- q;
              do l <- range start stop step; Ok (Some l)) = Err e -> e = ValueError).
    { intros q Hq. destruct (match x with [] => Ok 0%Z | _ => int_chars x end) eqn:Es; cbn [bind]; [|intros H; injection H as <-; destruct x; [discriminate|exact (I _ _ Es)]].
      destruct (int_chars y) eqn:Et; cbn [bind]; [|intros H; injection H as <-; exact (I _ _ Et)].
      destruct q; cbn [bind]; [|intros H; injection H as <-; auto]. unfold range. destruct (_ =? 0)%Z; cbn; congruence. }
    destruct z as [|z [|? ?]]; [|destruct z|congruence]; apply G; try discriminate. intros u. apply I.
  - destruct (existsb (Ascii.eqb ",") _).
    + pose proof (list_parts (split_chars "," (strip_chars (list_ascii_of_string s)))) as G. destruct (map_res _ _) as [w|x]; cbn [bind]; [discriminate|].
      intros H. injection H as <-. apply G.
    + destruct (int_chars _) eqn:E; cbn [bind]; [discriminate|]. intros H. injection H as <-. exact (I _ _ E).
Qed.
