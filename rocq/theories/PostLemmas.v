(** Facts about post-processing samples and summarising bounds. *)
From Verif Require Import Base BaseLemmas PostModel PostSpec.
From Coq Require Import Lia Lqa.
Open Scope list_scope.
Open Scope nat_scope.

Section Sample.
  Context {P D V T : Type} (gen : P -> res (option D)) (times : D -> res T) (measure : option T -> option T -> D -> res (V * V))
          (bounds : T -> D -> res (Q * Q)).

  Lemma run_sample_result t f i p : sample_result gen measure t f i p (run_sample gen measure t f i p).
  Proof.
    unfold run_sample, get_data_dict. destruct (gen p) as [[d|]|e] eqn:E; cbn.
    - destruct (measure t f d) as [[a b]|e] eqn:M; cbn; [eapply measured|eapply not_measured]; eauto.
    - apply not_a_dictionary. exact E.
    - apply not_generated. exact E.
  Qed.
  Lemma sample_result_fun t f i p r1 r2 : sample_result gen measure t f i p r1 -> sample_result gen measure t f i p r2 -> r1 = r2.
  Proof. intros [] []; congruence. Qed.

  Definition param (post : list (Z * P)) (i : Z) (p : P) : Prop := In (i, p) post.
  Lemma rows_of_one (post : list (Z * P)) i p : NoDup (map fst post) -> In (i, p) post -> rows_of post i = [(i, p)].
  Proof.
    induction post as [|[j q] l IH]; cbn; [tauto|]. intros N H. inversion N as [|? ? N1 N2]; subst. destruct (Z.eqb_spec j i) as [->|D0].
    - destruct H as [H|H]; [|exfalso; apply N1; apply (in_map fst) in H; exact H]. injection H as ->. f_equal.
      change (filter _ l) with (rows_of l i). clear -N1. induction l as [|[j q] l IH]; cbn; [auto|]. cbn in N1.
      destruct (Z.eqb_spec j i); [tauto|]. apply IH. tauto.
    - destruct H as [H|H]; [congruence|]. apply IH; auto.
  Qed.
  Lemma rows_of_none (post : list (Z * P)) i : rows_of post i = [] <-> ~ In i (map fst post).
  Proof.
    induction post as [|[j q] l IH]; cbn; [tauto|]. destruct (Z.eqb_spec j i) as [->|D0]; [split; [discriminate|tauto]|]. rewrite IH. tauto.
  Qed.
  Lemma loc_distinct (post : list (Z * P)) : NoDup (map fst post) -> forall labels rows, loc post labels = Ok rows ->
    map fst rows = labels /\ incl rows post.
  Proof.
    intros N. induction labels as [|i r IH]; intros rows H; cbn in H; [apply Ok_inj in H; subst; split; [auto|intros x []]|].
    destruct (rows_of post i) as [|x l] eqn:E; [discriminate|].
    assert (I : In x post) by (assert (In x (rows_of post i)) by (rewrite E; left; auto); unfold rows_of in *; apply filter_In in H0; apply H0).
    assert (Hx : fst x = i) by (assert (In x (rows_of post i)) by (rewrite E; left; auto); unfold rows_of in *; apply filter_In in H0; apply Z.eqb_eq, H0).
    destruct x as [j p]. cbn in Hx. subst j. rewrite (rows_of_one post i p N I) in E. injection E as <-.
    apply bind_ok in H. destruct H as (k & H0 & H). apply Ok_inj in H. subst rows. destruct (IH _ H0) as (A & B). cbn. split; [congruence|]. intros y [<-|Y]; auto.
  Qed.
  Lemma loc_err (post : list (Z * P)) labels e : loc post labels = Err e -> e = KeyError /\ exists i, In i labels /\ ~ In i (map fst post).
  Proof.
    induction labels as [|i r IH]; cbn; [discriminate|]. destruct (rows_of post i) as [|x l] eqn:E.
    - intros H. injection H as <-. split; [auto|]. exists i. split; [auto|]. apply rows_of_none. exact E.
    - destruct (loc post r); [discriminate|]. intros H. injection H as <-. destruct (IH eq_refl) as (A & j & B & C). split; [auto|]. exists j. auto.
  Qed.
  Lemma loc_some (post : list (Z * P)) labels : incl labels (map fst post) -> exists rows, loc post labels = Ok rows.
  Proof. intros H. destruct (loc post labels) as [rows|e] eqn:E; [eauto|]. destruct (loc_err _ _ _ E) as (_ & i & A & B). exfalso. auto. Qed.
  Lemma map_res_ok {A B} (g : A -> B) l : map_res (fun x => Ok (g x)) l = Ok (map g l).
  Proof. induction l; cbn; [auto|]. rewrite IHl. reflexivity. Qed.
  Lemma postprocess_any post t f samples :
    postprocess gen measure post t f samples =
    if one_given t f then do rows <- loc post (selection post samples);
      Ok (map (fun x => run_sample gen measure t f (fst x) (snd x)) (combine (selection post samples) (map snd rows)))
    else Err ValueError.
  Proof.
    unfold postprocess. destruct (one_given t f) eqn:E; [|reflexivity]. destruct (loc _ _) as [rows|e]; cbn; [|reflexivity].
    unfold postprocess_sample. rewrite E. apply map_res_ok.
  Qed.
  Lemma combine_fst_snd (rows : list (Z * P)) : combine (map fst rows) (map snd rows) = rows.
  Proof. induction rows as [|[i p] l IH]; cbn; congruence. Qed.
  Lemma one_given_iff {A} (t f : option A) : one_given t f = true <-> exactly_one t f.
  Proof. unfold exactly_one. destruct t, f; cbn; split; intros H; try discriminate; try reflexivity; intuition congruence. Qed.
  Lemma selection_asked (post : list (Z * P)) samples : selection post samples = asked post samples.
  Proof. destruct samples; reflexivity. Qed.
  Lemma loc_bad (post : list (Z * P)) labels i : In i labels -> ~ In i (map fst post) -> loc post labels = Err KeyError.
  Proof.
    intros H N. induction labels as [|j r IH]; [destruct H|]. cbn. destruct (rows_of post j) as [|x l] eqn:E; [reflexivity|].
    destruct H as [->|H]; [apply rows_of_none in N; congruence|]. rewrite (IH H). reflexivity.
  Qed.
  Lemma loc_rows (post : list (Z * P)) samples : NoDup (map fst post) -> incl (asked post samples) (map fst post) ->
    exists rows, loc post (selection post samples) = Ok rows /\ combine (selection post samples) (map snd rows) = rows /\
      forall B (R : Z -> P -> B -> Prop) (g : Z -> P -> B), (forall i p, R i p (g i p)) ->
        Forall2 (fun i r => exists p, In (i, p) post /\ R i p r) (asked post samples) (map (fun x => g (fst x) (snd x)) rows).
  Proof.
    intros N I. rewrite selection_asked. destruct (loc_some post _ I) as (rows & E). exists rows. split; [exact E|].
    destruct (loc_distinct post N _ _ E) as (A & K). rewrite <- A. split; [apply combine_fst_snd|]. intros B R g Hg. clear A E I.
    induction rows as [|[i p] l IH]; cbn; [constructor|].
    constructor; [exists p; split; [apply K; left; auto|apply Hg]|]. apply IH. intros x X; apply K; right; auto.
  Qed.
  Lemma results_in_order post t f samples : NoDup (map fst post) -> exactly_one t f -> incl (asked post samples) (map fst post) ->
    exists l, postprocess gen measure post t f samples = Ok l /\
      Forall2 (fun i r => exists p, In (i, p) post /\ sample_result gen measure t f i p r) (asked post samples) l.
  Proof.
    intros N G I. apply one_given_iff in G. destruct (loc_rows post samples N I) as (rows & E & K & F).
    rewrite postprocess_any, G, E. cbn [bind]. rewrite K. eexists. split; [reflexivity|].
    exact (F _ (sample_result gen measure t f) (run_sample gen measure t f) (run_sample_result t f)).
  Qed.
  Lemma postprocess_err post t f samples e : postprocess gen measure post t f samples = Err e <->
    (~ exactly_one t f /\ e = ValueError) \/ (exactly_one t f /\ e = KeyError /\ exists i, In i (asked post samples) /\ ~ In i (map fst post)).
  Proof.
    rewrite postprocess_any, <- one_given_iff. destruct (one_given t f).
    - split.
      + destruct (loc post (selection post samples)) as [rows|x] eqn:E; cbn; [discriminate|]. intros H. injection H as <-. right. split; [auto|].
        rewrite selection_asked in E. exact (loc_err _ _ _ E).
      + intros [(H & _)|(_ & -> & i & H & N)]; [exfalso; apply H; reflexivity|]. rewrite selection_asked, (loc_bad _ _ _ H N). reflexivity.
    - split; [intros H; injection H as <-; left; split; [discriminate|reflexivity]|]. intros [(_ & ->)|(H & _)]; [reflexivity|discriminate].
  Qed.
  Lemma summary_ok (l : list (presult V)) n pc es ls : get_summary l = Ok (n, pc, es, ls) ->
    n = length l /\ (pc * inject_Z (Z.of_nat (length l)) == inject_Z (Z.of_nat (length (successes l))) * 100)%Q /\
    es = map pr_egw (successes l) /\ ls = map pr_lgw (successes l).
  Proof.
    change (successes l) with (success_only l).
    unfold get_summary, percentage. destruct (length l) eqn:E; [discriminate|]. rewrite <- E. cbn [bind]. intros H. injection H as <- <- <- <-.
    repeat split. set (a := inject_Z (Z.of_nat (length (success_only l)))). set (b := inject_Z (Z.of_nat (length l))).
    assert (~ b == 0)%Q by (unfold b, Qeq, inject_Z; cbn; lia). field. exact H.
  Qed.
  Lemma summary_iff (l : list (presult V)) e : get_summary l = Err e <-> l = [] /\ e = ZeroDivisionError.
  Proof. unfold get_summary, percentage. destruct l; cbn; split; try discriminate; [intros H; injection H as <-; auto|intros (_ & ->); auto|intros (H & _); discriminate]. Qed.

  (** *** Bounds *)
  Lemma bounds_formed i p : well_formed (get_fref_bounds_for_sample gen times bounds i p) /\ fb_index (get_fref_bounds_for_sample gen times bounds i p) = i.
  Proof.
    unfold get_fref_bounds_for_sample, well_formed, has_bounds. destruct (do d <- get_data_dict gen p; _) as [[a b]|e]; cbn; split; auto.
    - left. exists a, b. auto.
    - right. repeat split. discriminate.
  Qed.
  Lemma bounds_all_formed post samples l : get_fref_bounds gen times bounds post samples = Ok l -> Forall well_formed l.
  Proof.
    unfold get_fref_bounds. intros H. apply bind_ok in H. destruct H as (rows & _ & H). apply Ok_inj in H. subst l. apply Forall_forall. intros r R. apply in_map_iff in R. destruct R as (y & <- & _). apply bounds_formed.
  Qed.
  Lemma bounds_for_sample i p : bounds_result gen times bounds i p (get_fref_bounds_for_sample gen times bounds i p).
  Proof.
    unfold get_fref_bounds_for_sample, get_data_dict. assert (H : bounds_of gen times bounds p =
      (do d <- (do d <- gen p; match d with Some d => Ok d | None => Err TypeError end); do t <- times d; bounds t d)).
    { unfold bounds_of. destruct (gen p) as [[d|]|x]; cbn; [destruct (times d)|..]; reflexivity. }
    destruct (do d <- _; _) as [[a b]|x]; cbn; constructor; exact H.
  Qed.
  Lemma bounds_result_fun i p r1 r2 : bounds_result gen times bounds i p r1 -> bounds_result gen times bounds i p r2 -> r1 = r2.
  Proof. intros [] []; congruence. Qed.
  Lemma bounds_in_order post samples : NoDup (map fst post) -> incl (asked post samples) (map fst post) ->
    exists l, get_fref_bounds gen times bounds post samples = Ok l /\
      Forall2 (fun i r => exists p, In (i, p) post /\ bounds_result gen times bounds i p r) (asked post samples) l.
  Proof.
    intros N I. destruct (loc_rows post samples N I) as (rows & E & K & F).
    unfold get_fref_bounds. rewrite E. cbn [bind]. rewrite K. eexists. split; [reflexivity|].
    exact (F _ (bounds_result gen times bounds) (get_fref_bounds_for_sample gen times bounds) bounds_for_sample).
  Qed.
  Lemma bounds_err post samples e : get_fref_bounds gen times bounds post samples = Err e <->
    e = KeyError /\ exists i, In i (asked post samples) /\ ~ In i (map fst post).
  Proof.
    unfold get_fref_bounds. rewrite selection_asked. split.
    - destruct (loc post _) as [rows|x] eqn:E; cbn; [discriminate|]. intros H. injection H as <-. exact (loc_err _ _ _ E).
    - intros (-> & i & H & N). rewrite (loc_bad _ _ _ H N). reflexivity.
  Qed.
End Sample.

Definition succeeded (r : fresult) : bool := String.eqb (fb_status r) "success".
Lemma all_some_map {A B} (g : A -> option B) l v : all_some (map g l) = Ok v -> forall b, In b v <-> exists a, In a l /\ g a = Some b.
Proof.
  revert v. induction l as [|a l IH]; cbn; intros v H b.
  - apply Ok_inj in H. subst. cbn. firstorder.
  - destruct (g a) as [x|] eqn:E; [|discriminate]. apply bind_ok in H. destruct H as (k & H0 & H). apply Ok_inj in H. subst v. cbn. rewrite (IH _ H0 b). split.
    + intros [<-|(c & C & G)]; [exists a; auto|exists c; auto].
    + intros (c & [<-|C] & G); [left; congruence|right; exists c; auto].
Qed.
Lemma all_some_total {A B} (g : A -> option B) l : (forall a, In a l -> g a <> None) -> exists v, all_some (map g l) = Ok v.
Proof.
  induction l as [|a l IH]; cbn; intros H; [eauto|]. pose proof (H a (or_introl eq_refl)). destruct (g a); [|contradiction].
  destruct IH as (v & ->); [auto|]. cbn. eauto.
Qed.
Lemma formed_succeeded r : well_formed r -> succeeded r = true -> exists a b, has_bounds r a b.
Proof. unfold succeeded. intros [(a & b & H & _)|(H & _)] S; [eauto|]. rewrite H in S. discriminate. Qed.
Lemma pymax_ok l : l <> [] -> (forall x, In x l -> x <> None) -> exists m, pymax l = Ok (Some m) /\ In (Some m) l /\ forall x, In (Some x) l -> (x <= m)%Q.
Proof.
  intros N H. unfold pymax. destruct l as [|x [|y l]]; [contradiction| |].
  - destruct x as [x|]; [|contradiction (H None (or_introl eq_refl)); reflexivity]. exists x. split; [auto|]. split; [left; auto|].
    intros z [Z|[]]. injection Z as ->. apply Qle_refl.
  - destruct (all_some_total (fun a => a) (x :: y :: l)) as (v & E); [intros a A; exact (H a A)|]. rewrite map_id in E. pose proof E as E0. rewrite <- (map_id (x :: y :: l)) in E0.
    pose proof (all_some_map (fun a => a) _ v E0) as I. rewrite E. cbn [bind].
    assert (Nv : v <> []) by (intros ->; cbn in E; destruct x; [destruct y; [|discriminate]; destruct (all_some l); discriminate|discriminate]).
    destruct (qmax v) as [m|e] eqn:Q; [|exfalso; destruct v; [contradiction|cbn in Q; discriminate]]. cbn.
    exists m. split; [auto|]. destruct (qmax_ok v m Q) as (A & B). split.
    + apply I in A. destruct A as (a & A & ->). exact A.
    + intros z Z. apply B. apply I. exists (Some z). auto.
Qed.
Lemma pymin_ok l : l <> [] -> (forall x, In x l -> x <> None) -> exists m, pymin l = Ok (Some m) /\ In (Some m) l /\ forall x, In (Some x) l -> (m <= x)%Q.
Proof.
  intros N H. unfold pymin. destruct l as [|x [|y l]]; [contradiction| |].
  - destruct x as [x|]; [|contradiction (H None (or_introl eq_refl)); reflexivity]. exists x. split; [auto|]. split; [left; auto|].
    intros z [Z|[]]. injection Z as ->. apply Qle_refl.
  - destruct (all_some_total (fun a => a) (x :: y :: l)) as (v & E); [intros a A; exact (H a A)|]. rewrite map_id in E. pose proof E as E0. rewrite <- (map_id (x :: y :: l)) in E0.
    pose proof (all_some_map (fun a => a) _ v E0) as I. rewrite E. cbn [bind].
    assert (Nv : v <> []) by (intros ->; cbn in E; destruct x; [destruct y; [|discriminate]; destruct (all_some l); discriminate|discriminate]).
    destruct (qmin v) as [m|e] eqn:Q; [|exfalso; destruct v; [contradiction|cbn in Q; discriminate]]. cbn.
    exists m. split; [auto|]. destruct (qmin_ok v m Q) as (A & B). split.
    + apply I in A. destruct A as (a & A & ->). exact A.
    + intros z Z. apply B. apply I. exists (Some z). auto.
Qed.
Lemma minmax_common l : Forall well_formed l -> (exists r, In r l /\ fb_status r = "success"%string) ->
  exists a b, get_minmax_fref l = Ok (Some a, Some b) /\
    (exists r y, In r l /\ has_bounds r a y) /\ (exists r x, In r l /\ has_bounds r x b) /\
    (forall r x y, In r l -> has_bounds r x y -> (x <= a)%Q /\ (b <= y)%Q).
Proof.
  intros F (r0 & R0 & S0). rewrite Forall_forall in F.
  assert (I0 : In r0 (fsuccess_only l)) by (apply filter_In; split; [auto|rewrite S0; apply String.eqb_refl]).
  assert (FS : forall r, In r (fsuccess_only l) -> exists a b, has_bounds r a b).
  { intros r R. apply filter_In in R. destruct R as (R & S). apply formed_succeeded; auto. }
  destruct (pymax_ok (map fb_min (fsuccess_only l))) as (a & A1 & A2 & A3).
  { destruct (fsuccess_only l); [destruct I0|discriminate]. }
  { intros x X. apply in_map_iff in X. destruct X as (r & <- & R). destruct (FS r R) as (u & v & _ & -> & _). discriminate. }
  destruct (pymin_ok (map fb_max (fsuccess_only l))) as (b & B1 & B2 & B3).
  { destruct (fsuccess_only l); [destruct I0|discriminate]. }
  { intros x X. apply in_map_iff in X. destruct X as (r & <- & R). destruct (FS r R) as (u & v & _ & _ & ->). discriminate. }
  exists a, b. split.
  - unfold get_minmax_fref, fget_summary, percentage. destruct l as [|r1 l1] eqn:El; [destruct R0|]. rewrite <- El in *.
    assert (Ln : length l = S (length l1)) by (rewrite El; reflexivity). rewrite Ln. rewrite <- Ln. cbn [bind].
    rewrite A1, B1. cbn [bind]. destruct (Qeq_bool _ 0) eqn:Eq; [|reflexivity]. exfalso. apply Qeq_bool_eq in Eq.
    assert (Ps : (0 < inject_Z (Z.of_nat (length (fsuccess_only l))))%Q) by (unfold Qlt, inject_Z; cbn; destruct (fsuccess_only l); [destruct I0|cbn; lia]).
    assert (Pt : (0 < inject_Z (Z.of_nat (length l)))%Q) by (unfold Qlt, inject_Z; cbn; lia).
    assert (X : (inject_Z (Z.of_nat (length (fsuccess_only l))) == inject_Z (Z.of_nat (length (fsuccess_only l))) / inject_Z (Z.of_nat (length l)) * 100 * (inject_Z (Z.of_nat (length l)) * (1#100)))%Q) by (field; lra).
    rewrite Eq in X. rewrite X in Ps. lra.
  - apply in_map_iff in A2. destruct A2 as (ra & Ea & Ia). apply in_map_iff in B2. destruct B2 as (rb & Eb & Ib).
    split; [|split].
    + exists ra. destruct (FS ra Ia) as (u & v & S & M & X). exists v. split; [apply filter_In in Ia; apply Ia|]. repeat split; auto.
    + exists rb. destruct (FS rb Ib) as (u & v & S & M & X). exists u. split; [apply filter_In in Ib; apply Ib|]. repeat split; auto.
    + intros r x y R (S & M & X). assert (I : In r (fsuccess_only l)) by (apply filter_In; split; [auto|rewrite S; apply String.eqb_refl]).
      split; [apply A3; rewrite <- M|apply B3; rewrite <- X]; apply in_map; exact I.
Qed.
Lemma minmax_none l : (forall r, In r l -> fb_status r <> "success"%string) ->
  get_minmax_fref l = Err (match l with [] => ZeroDivisionError | _ => GenericException end).
Proof.
  intros H. assert (E : fsuccess_only l = []).
  { unfold fsuccess_only. induction l as [|r l IH]; cbn; [auto|]. pose proof (H r (or_introl eq_refl)) as N. apply String.eqb_neq in N. rewrite N. apply IH. intros x X. apply H. right. exact X. }
  destruct l as [|r l]; [reflexivity|]. unfold get_minmax_fref, fget_summary, percentage. cbn [length bind]. rewrite E. cbn [length bind].
  match goal with |- context [Qeq_bool ?q 0] => assert (X : Qeq_bool q 0 = true) end; [|rewrite X; reflexivity].
  apply Qeq_eq_bool. unfold Qdiv. change (inject_Z (Z.of_nat 0)) with 0%Q. ring.
Qed.
Lemma minmax_inside l a b : Forall well_formed l -> get_minmax_fref l = Ok (Some a, Some b) ->
  (forall x, (a < x)%Q -> (x < b)%Q -> forall r u v, In r l -> has_bounds r u v -> (u < x)%Q /\ (x < v)%Q) /\
  ((b < a)%Q <-> exists r1 r2 u1 v1 u2 v2, In r1 l /\ In r2 l /\ has_bounds r1 u1 v1 /\ has_bounds r2 u2 v2 /\ (v1 < u2)%Q).
Proof.
  intros F H.
  destruct (existsb succeeded l) eqn:Ex.
  - apply existsb_exists in Ex. destruct Ex as (r & R & S). apply String.eqb_eq in S.
    destruct (minmax_common l F (ex_intro _ r (conj R S))) as (a' & b' & E & (ra & ya & Ra & Ha) & (rb & xb & Rb & Hb) & C).
    rewrite E in H. injection H as -> ->. split.
    + intros x A B r' u v R' H'. destruct (C r' u v R' H'). split; lra.
    + split.
      * intros L. exists rb, ra, xb, b, a, ya. auto.
      * intros (r1 & r2 & u1 & v1 & u2 & v2 & R1 & R2 & H1 & H2 & L). destruct (C r1 u1 v1 R1 H1). destruct (C r2 u2 v2 R2 H2). lra.
  - rewrite minmax_none in H; [destruct l; discriminate|]. intros r R S.
    assert (X : existsb succeeded l = true) by (apply existsb_exists; exists r; split; [auto|unfold succeeded; rewrite S; apply String.eqb_refl]). congruence.
Qed.

(** Data for the examples: negative parameters cannot be generated, 0 gives no dictionary, 5 cannot be measured. *)
Definition toy_gen (p : Z) : res (option Z) := if (p <? 0)%Z then Err AttributeError else if (p =? 0)%Z then Ok None else Ok (Some p).
Definition toy_measure (t f : option Q) (d : Z) : res (Z * Z) := if (d =? 5)%Z then Err GenericException else Ok (d, 2 * d)%Z.
Definition toy_samples : list (Z * Z) := [(3, 7); (8, -1); (1, 0); (6, 5); (2, 9)]%Z.
(** A table in which a label occurs twice. *)
Definition toy_doubled : list (Z * Z) := [(3, 7); (3, 8); (2, 9)]%Z.
Definition toy_bounds (_ : Q) (d : Z) : res (Q * Q) := if (d =? 5)%Z then Err GenericException else Ok (inject_Z d, inject_Z (d + 4)).

Section Doubled.
  Context {P D V T : Type} (gen : P -> res (option D)) (measure : option T -> option T -> D -> res (V * V)).
  (** A table with a repeated label: the second requested sample gets the parameters of the second row of the first one. *)
  Lemma doubled_shift (i j : Z) (p q r : P) t : i <> j ->
    exists x y, postprocess gen measure [(i, p); (i, q); (j, r)] (Some t) None (Some [i; j]) = Ok [x; y] /\
      sample_result gen measure (Some t) None i p x /\ sample_result gen measure (Some t) None j q y.
  Proof.
    intros N. exists (run_sample gen measure (Some t) None i p), (run_sample gen measure (Some t) None j q).
    split; [|split; apply run_sample_result].
    rewrite postprocess_any. cbn. rewrite !Z.eqb_refl. destruct (Z.eqb_spec j i); [congruence|]. destruct (Z.eqb_spec i j); [congruence|]. reflexivity.
  Qed.
End Doubled.
