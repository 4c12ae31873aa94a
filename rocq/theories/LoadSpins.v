(** C82: the spins of generated waveforms. *)
From Coq Require Import Qabs Lia Lqa.
From Verif Require Import Base BaseLemmas UtilsModel UtilsSpec UtilsLemmas DataModel HelperModel HelperSpec LoadModel LoadSpec LoadLemmas LoadKeys LoadWave LoadLAL.
Open Scope string_scope.
Open Scope nat_scope.

Lemma good_spin c x y z : c = [x; y; z] -> (Qabs x + Qabs y <= 1 # 100000)%Q -> (z * z <= 1)%Q -> ~ bad_spin c.
Proof.
  intros -> P Z [B|(x' & y' & z' & E & B)]; [now apply B|]. injection E as <- <- <-. destruct B; lra.
Qed.
Lemma aligned_small x y z : nearly_aligned x y -> aligned [x; y; z] = aligned [0%Q; 0%Q; z].
Proof.
  intros [P L]. unfold aligned. cbn [firstn skipn map app].
  assert (E : (qsum [Qabs x; Qabs y] == Qabs x + Qabs y)%Q) by (unfold qsum; cbn [fold_right fold_left]; ring).
  destruct (Qlt_bool (1 # 100000) (qsum [Qabs x; Qabs y])) eqn:A; [apply Qlt_bool_iff in A; rewrite E in A; lra|].
  destruct (Qeq_bool (qsum [Qabs x; Qabs y]) 0) eqn:B; [apply Qeq_bool_iff in B; rewrite E in B; lra|]. reflexivity.
Qed.

Section Spins.
  Variable S : sources.
  Lemma once_spins u kw r : load_LAL_once S u = Ok (kw, r) ->
    exists c1 c2, asked "LAL" u "chi1" (Some (AVec c1)) /\ asked "LAL" u "chi2" (Some (AVec c2)) /\ ~ bad_spin c1 /\ ~ bad_spin c2.
  Proof.
    intros O. destruct (once_ok _ _ _ _ O) as (C & a & R & W). destruct r as [t d]. apply with_args_ok in W. destruct W as (t0 & h & p & G & _).
    apply generate_ok in G. destruct G as (s1 & s2 & m & dd & dist & raw & SC & _). apply spin_checks_ok in SC.
    destruct SC as (x1 & y1 & z1 & x2 & y2 & z2 & E1 & E2 & _ & _ & _ & _ & _ & _ & P1 & P2 & Z1 & Z2). destruct R as (_ & _ & R1 & R2 & _).
    exists (la_c1 a), (la_c2 a). split; [exact (reads_asked _ _ _ _ C R1)|]. split; [exact (reads_asked _ _ _ _ C R2)|].
    split; [exact (good_spin _ _ _ _ E1 P1 Z1)|exact (good_spin _ _ _ _ E2 P2 Z2)].
  Qed.
  Lemma spins_refused fuel u k c : k = "chi1" \/ k = "chi2" -> asked "LAL" u k (Some (AVec c)) -> bad_spin c ->
    exists e, snd (load_waveform S fuel "LAL" u) = Err e.
  Proof.
    intros K A B. destruct (snd (load_waveform S fuel "LAL" u)) as [data|e] eqn:H; [exfalso|eauto].
    unfold load_waveform in H. cbn [String.eqb Ascii.eqb Bool.eqb lift snd] in H. apply lal_data in H. destruct H as (kw & t & d & O & _).
    destruct (once_spins _ _ _ O) as (c1 & c2 & A1 & A2 & B1 & B2). unfold asked in *. destruct K as [K|K]; subst k; [rewrite A1 in A|rewrite A2 in A]; injection A as <-; contradiction.
  Qed.

  (** ** the same keywords, up to small components in the plane *)
  Definition spin_eq (a b : lkwargs) : Prop :=
    forall k, slookup a k = slookup b k \/
      ((k = "chi1" \/ k = "chi2") /\ exists c c', slookup a k = Some (Some (AVec c)) /\ slookup b k = Some (Some (AVec c')) /\ aligned c = aligned c').
  Lemma spin_get a b k : spin_eq a b -> k <> "chi1" -> k <> "chi2" -> sget a k = sget b k.
  Proof. intros H N1 N2. destruct (H k) as [E|[[E|E] _]]; [|contradiction|contradiction]. unfold sget, dget, slookup in *. now rewrite E. Qed.
  Lemma spin_sset a b k v : spin_eq a b -> spin_eq (sset a k v) (sset b k v).
  Proof. intros H k'. rewrite !slookup_sset. destruct (String.eqb k' k); [now left|apply H]. Qed.
  Lemma spin_known a b def : spin_eq a b -> known a def -> known b def.
  Proof. intros H K k P. apply K. destruct (H k) as [->|[_ (c & c' & -> & _)]]; [exact P|discriminate]. Qed.
  Lemma spin_sym a b : spin_eq a b -> spin_eq b a.
  Proof. intros H k. destruct (H k) as [E|[K (c & c' & A & B & E)]]; [now left|]. right. split; [exact K|]. exists c', c. auto. Qed.
  Lemma spin_check a b : spin_eq a b ->
    match check_kwargs_and_set_defaults (Some a) (published "LAL"), check_kwargs_and_set_defaults (Some b) (published "LAL") with
    | Ok x, Ok y => spin_eq x y | Err e, Err e' => e = e' | _, _ => False end.
  Proof.
    intros H. pose proof (published_nodup "LAL") as N. destruct (check_kwargs_and_set_defaults (Some a) (published "LAL")) as [x|e] eqn:EA.
    - destruct (checked _ _ _ N EA) as [KA LA]. destruct (checked_total _ _ (spin_known _ _ _ H KA)) as [y EB]. rewrite EB. destruct (checked _ _ _ N EB) as [_ LB].
      intros k. rewrite LA, LB, !slookup_app. destruct (H k) as [->|[K (c & c' & A & B & E)]]; [now left|]. right. split; [exact K|]. rewrite A, B. eauto 6.
    - assert (KA : ~ known a (published "LAL")) by (intros K; destruct (checked_total _ _ K) as [y Y]; congruence).
      rewrite (checked_unknown _ _ KA) in EA. rewrite (checked_unknown b (published "LAL")); [congruence|]. intros K. apply KA. exact (spin_known _ _ _ (spin_sym _ _ H) K).
  Qed.
  Lemma spin_required a b keys : spin_eq a b -> raise_exception_if_none a keys = raise_exception_if_none b keys.
  Proof.
    intros H. induction keys as [|k keys IH]; [reflexivity|]. cbn [raise_exception_if_none]. unfold sget, dget. fold (slookup a k) (slookup b k).
    destruct (H k) as [->|[_ (c & c' & -> & -> & _)]]; [|cbn [bind]; exact IH]. destruct (slookup b k) as [[v|]|]; cbn [bind]; auto.
  Qed.
  Lemma spin_hack a q c1 c2 c1' c2' e an om dt ph M D : aligned c1 = aligned c1' -> aligned c2 = aligned c2' ->
    load_LAL_waveform_using_hack S a q c1 c2 e an om dt ph M D = load_LAL_waveform_using_hack S a q c1' c2' e an om dt ph M D.
  Proof. intros E1 E2. unfold load_LAL_waveform_using_hack, generate_LAL_waveform, spin_checks. now rewrite E1, E2. Qed.
  Definition rel_spin (x y : res (lkwargs * (list Q * modes))) : Prop :=
    match x, y with Ok (ka, ra), Ok (kb, rb) => ra = rb /\ spin_eq ka kb | Err e, Err e' => e = e' | _, _ => False end.
  Lemma spin_vec x y k : spin_eq x y ->
    match (do v <- sget x k; vec v), (do v <- sget y k; vec v) with Ok c, Ok c' => aligned c = aligned c' | Err e, Err e' => e = e' | _, _ => False end.
  Proof.
    intros H. unfold sget, dget. fold (slookup x k) (slookup y k). destruct (H k) as [->|[_ (c & c' & -> & -> & E)]]; [|exact E].
    destruct (slookup y k) as [[[]|]|]; cbn [bind vec]; reflexivity.
  Qed.
  Lemma once_spin a b : spin_eq a b -> rel_spin (load_LAL_once S a) (load_LAL_once S b).
  Proof.
    intros H. unfold load_LAL_once. change lal_defaults with (published "LAL"). pose proof (spin_check a b H) as C.
    destruct (check_kwargs_and_set_defaults (Some a) (published "LAL")) as [x|e], (check_kwargs_and_set_defaults (Some b) (published "LAL")) as [y|e']; try contradiction; cbn [bind]; [|exact C].
    rewrite (spin_required x y _ C). unfold has_true.
    assert (G : forall k, k <> "chi1" -> k <> "chi2" -> sget x k = sget y k) by (intros k; exact (spin_get x y k C)).
    rewrite (G "approximant"), (G "q"), (G "ecc"), (G "mean_ano"), (G "Momega0"), (G "deltaTOverM"), (G "physicalUnits"), (G "M"), (G "D") by discriminate.
    pose proof (spin_vec x y "chi1" C) as V1. pose proof (spin_vec x y "chi2" C) as V2.
    destruct (raise_exception_if_none y _); cbn [bind]; [|reflexivity]. destruct (do v <- sget y "approximant"; str v); cbn [bind]; [|reflexivity].
    destruct (do v <- sget y "q"; num v); cbn [bind]; [|reflexivity].
    destruct (do v <- sget x "chi1"; vec v) as [c1|e1], (do v <- sget y "chi1"; vec v) as [c1'|e1']; try contradiction; cbn [bind]; [|exact V1].
    destruct (do v <- sget x "chi2"; vec v) as [c2|e2], (do v <- sget y "chi2"; vec v) as [c2'|e2']; try contradiction; cbn [bind]; [|exact V2].
    repeat match goal with |- rel_spin (bind ?m _) (bind ?m _) => destruct m; cbn [bind]; [|reflexivity] end.
    rewrite (spin_hack _ _ c1 c2 c1' c2' _ _ _ _ _ _ _ V1 V2). destruct (load_LAL_waveform_using_hack S _ _ _ _ _ _ _ _ _ _ _); cbn [bind rel_spin]; auto.
  Qed.
  Lemma longer_spin f t0 : forall fuel a b cur, spin_eq a b -> longer S fuel f t0 a cur = longer S fuel f t0 b cur.
  Proof.
    induction fuel as [|n IH]; intros a b cur A; cbn [longer]; [reflexivity|].
    destruct (get (fst cur) 0) as [z0|e]; cbn [bind]; [|reflexivity]. destruct (Qlt_bool t0 z0); [|reflexivity].
    rewrite (spin_get a b "Momega0" A) by discriminate. destruct (do v <- sget b "Momega0"; num v) as [om|e]; cbn [bind]; [|reflexivity].
    assert (A' := spin_sset a b "Momega0" (Some (ANum (f * om)%Q)) A). pose proof (once_spin _ _ A') as R.
    destruct (load_LAL_once S (sset a _ _)) as [[ka ra]|e], (load_LAL_once S (sset b _ _)) as [[kb rb]|e']; cbn [rel_spin] in R; try contradiction; cbn [bind snd]; [|now subst].
    destruct R as [-> _]. rewrite (IH _ _ rb A'). reflexivity.
  Qed.
  Lemma lal_spin fuel a b : spin_eq a b -> load_waveform S fuel "LAL" a = load_waveform S fuel "LAL" b.
  Proof.
    intros A. unfold load_waveform. cbn [String.eqb Ascii.eqb Bool.eqb]. f_equal. unfold load_LAL_waveform. pose proof (once_spin _ _ A) as R.
    destruct (load_LAL_once S a) as [[ka [t d]]|e], (load_LAL_once S b) as [[kb rb]|e']; cbn [rel_spin] in R; try contradiction; cbn [bind]; [|now subst].
    destruct R as [<- C]. unfold has_true. rewrite (spin_get ka kb "include_zero_ecc" C), (spin_get ka kb "approximant" C) by discriminate.
    destruct (do v <- sget kb "include_zero_ecc"; Ok (on v)) as [z|e]; cbn [bind]; [|reflexivity]. destruct z; [|reflexivity].
    destruct (do v <- sget kb "approximant"; str v) as [ap|e]; cbn [bind]; [|reflexivity].
    match goal with |- context [load_LAL_once S (sset (sset ka ?k1 ?v1) ?k2 ?v2)] =>
      assert (A' := spin_sset _ _ k2 v2 (spin_sset ka kb k1 v1 C)); pose proof (once_spin _ _ A') as R;
      destruct (load_LAL_once S (sset (sset ka k1 v1) k2 v2)) as [[k1' r1]|e], (load_LAL_once S (sset (sset kb k1 v1) k2 v2)) as [[k2' r2]|e'] end;
      cbn [rel_spin] in R; try contradiction; cbn [bind]; [|now subst].
    destruct R as [-> _]. cbn [snd]. destruct (get t 0); cbn [bind]; [|reflexivity]. now rewrite (longer_spin _ _ fuel _ _ r2 A').
  Qed.
  Lemma spins_small fuel u k x y z : k = "chi1" \/ k = "chi2" -> nearly_aligned x y ->
    load_waveform S fuel "LAL" (sset u k (Some (AVec [x; y; z]))) = load_waveform S fuel "LAL" (sset u k (Some (AVec [0%Q; 0%Q; z]))).
  Proof.
    intros K N. apply lal_spin. intros k'. rewrite !slookup_sset. destruct (String.eqb_spec k' k) as [E|E]; [|now left].
    right. split; [now rewrite E|]. exists [x; y; z], [0%Q; 0%Q; z]. split; [reflexivity|]. split; [reflexivity|]. now apply aligned_small.
  Qed.
End Spins.
