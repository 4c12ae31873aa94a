(** Keywords of the loaders: what they read, and two calls with alike keywords. *)
From Coq Require Import Qabs Lia Lqa.
From Verif Require Import Base BaseLemmas UtilsModel UtilsSpec UtilsLemmas DataModel HelperModel HelperSpec LoadModel LoadSpec.
Open Scope string_scope.
Open Scope nat_scope.

Lemma lbind_inv {A B} (m : lg A) (f : A -> lg B) b : snd (lbind m f) = Ok b -> exists a, snd m = Ok a /\ snd (f a) = Ok b.
Proof. unfold lbind. destruct (snd m) as [a|e] eqn:E; cbn [snd]; [|discriminate]. eauto. Qed.
Lemma sget_ok {V} (d : sdict V) k v : sget d k = Ok v <-> slookup d k = Some v.
Proof. unfold sget, dget, slookup. destruct (dlookup String.eqb d k); split; congruence. Qed.

(** ** defaults *)
Lemma defaults_published o : In o origins -> get_load_waveform_defaults o = Ok (published o).
Proof. intros H. cbn in H. repeat (destruct H as [<-|H]; [reflexivity|]). destruct H. Qed.
Lemma defaults_unknown o : ~ In o origins -> get_load_waveform_defaults o = Err GenericException.
Proof.
  intros H. unfold get_load_waveform_defaults.
  repeat match goal with |- (if String.eqb o ?x then _ else _) = _ =>
    destruct (String.eqb_spec o x) as [->|?]; [exfalso; apply H; cbn; tauto|] end. reflexivity.
Qed.
Lemma published_nodup o : NoDup (dkeys (published o)).
Proof.
  destruct (in_dec string_dec o origins) as [H|H].
  - cbn in H. repeat (destruct H as [<-|H]; [cbn; repeat constructor; cbn; intuition discriminate|]). destruct H.
  - assert (E : published o = []); [|rewrite E; constructor].
    pose proof (defaults_unknown o H) as D. clear D. cbn in H. unfold published.
    repeat match goal with |- context [match ?x with _ => _ end] => destruct x; try reflexivity end; exfalso; apply H; tauto.
Qed.
Lemma slookup_app {V} (a b : sdict V) k : slookup (a ++ b)%list k = match slookup a k with Some v => Some v | None => slookup b k end.
Proof. induction a as [|[k' v] a IH]; [reflexivity|]. unfold slookup in *. cbn [app dlookup]. destruct (String.eqb k k'); [reflexivity|exact IH]. Qed.
Lemma slookup_filter {V} (p : string * V -> bool) (d : sdict V) k : (forall v, p (k, v) = true) -> slookup (filter p d) k = slookup d k.
Proof.
  intros P. induction d as [|[k' v] d IH]; [reflexivity|]. cbn [filter]. unfold slookup in *. cbn [dlookup].
  destruct (String.eqb_spec k k') as [<-|N]; [rewrite P; cbn [dlookup]; now rewrite String.eqb_refl|].
  destruct (p (k', v)); [|exact IH]. cbn [dlookup]. destruct (String.eqb_spec k k'); [contradiction|exact IH].
Qed.
Definition known (u def : lkwargs) : Prop := forall k, slookup u k <> None -> slookup def k <> None.
Lemma known_keys u def : known u def <-> forallb (fun kw => smem def kw) (dkeys u) = true.
Proof.
  rewrite forallb_forall. unfold known. split.
  - intros H k K. specialize (H k). unfold smem, dmem. fold (slookup def k). destruct (slookup def k); [reflexivity|]. exfalso. apply H; [|reflexivity].
    intros E. apply slookup_none in E. contradiction.
  - intros H k K E. apply slookup_none in E. apply E. apply smem_in. apply H. destruct (in_dec string_dec k (dkeys u)) as [I|I]; [exact I|].
    apply slookup_none in I. contradiction.
Qed.
Lemma checked u def kw : NoDup (dkeys def) -> check_kwargs_and_set_defaults (Some u) def = Ok kw ->
  known u def /\ forall k, slookup kw k = slookup (u ++ def)%list k.
Proof.
  intros N H. unfold check_kwargs_and_set_defaults in H. destruct (forallb _ _) eqn:E in H; [|discriminate]. apply Ok_inj in H. subst kw.
  split; [now apply known_keys|]. intros k. rewrite fill_defaults_app by exact N. rewrite !slookup_app. destruct (slookup u k) eqn:K; [reflexivity|].
  apply slookup_filter. intros v. cbn [fst]. unfold smem, dmem. fold (slookup u k). now rewrite K.
Qed.
Lemma checked_total (u def : lkwargs) : known u def -> exists kw, check_kwargs_and_set_defaults (Some u) def = Ok kw.
Proof. intros K. apply known_keys in K. unfold check_kwargs_and_set_defaults. rewrite K. eauto. Qed.
Lemma checked_unknown (u def : lkwargs) : ~ known u def -> check_kwargs_and_set_defaults (Some u) def = Err ValueError.
Proof. intros K. unfold check_kwargs_and_set_defaults. destruct (forallb _ _) eqn:E; [|reflexivity]. exfalso. apply K. now apply known_keys. Qed.

(** ** two calls with alike keywords: the same except for [ign], which is given in both or in neither *)
Section Alike.
  Variable ign : string.
  Variable strict : bool. (* the ignored keyword is None in both or in neither *)
  Definition alike_value (x y : option (option lv)) : Prop :=
    match x, y with
    | Some v, Some w => strict = true -> (v = None <-> w = None)
    | None, None => True
    | _, _ => False
    end.
  Definition alike (a b : lkwargs) : Prop := (forall k, k <> ign -> slookup a k = slookup b k) /\ alike_value (slookup a ign) (slookup b ign).
  Lemma alike_sget a b k : alike a b -> k <> ign -> sget a k = sget b k.
  Proof. intros [H _] K. unfold sget, dget. specialize (H k K). unfold slookup in H. now rewrite H. Qed.
  Lemma alike_presence a b k : alike a b -> slookup a k <> None <-> slookup b k <> None.
  Proof.
    intros [H V]. destruct (String.eqb_spec k ign) as [->|N]; [|now rewrite H].
    unfold alike_value in V. destruct (slookup a ign), (slookup b ign); try contradiction; split; congruence.
  Qed.
  Lemma alike_sset a b k v : alike a b -> alike (sset a k v) (sset b k v).
  Proof.
    intros [H V]. split; [|].
    - intros k' N. rewrite !slookup_sset. destruct (String.eqb k' k); [reflexivity|now apply H].
    - rewrite !slookup_sset. destruct (String.eqb ign k); [cbn; tauto|exact V].
  Qed.
  Lemma alike_value_refl x : alike_value x x.
  Proof. destruct x; cbn; tauto. Qed.
  (** alike after completion with defaults *)
  Definition alike_in (def a b : lkwargs) : Prop := (known a def <-> known b def) /\ alike (a ++ def)%list (b ++ def)%list.
  Lemma alike_alike_in def a b : alike a b -> alike_in def a b.
  Proof.
    intros A. split.
    - split; intros K k P; apply K; now apply (alike_presence a b k A).
    - destruct A as [A V]. split.
      + intros k K. rewrite !slookup_app. now rewrite (A k K).
      + rewrite !slookup_app. unfold alike_value in V. destruct (slookup a ign), (slookup b ign); try contradiction; [exact V|apply alike_value_refl].
  Qed.
  Lemma alike_check a b def : NoDup (dkeys def) -> alike_in def a b ->
    match check_kwargs_and_set_defaults (Some a) def, check_kwargs_and_set_defaults (Some b) def with
    | Ok x, Ok y => alike x y
    | Err e, Err e' => e = e'
    | _, _ => False
    end.
  Proof.
    intros N [KK A]. destruct (check_kwargs_and_set_defaults (Some a) def) as [x|e] eqn:EA.
    - destruct (checked _ _ _ N EA) as [KA LA]. assert (KB : known b def) by now apply KK.
      destruct (checked_total _ _ KB) as [y EB]. rewrite EB. destruct (checked _ _ _ N EB) as [_ LB].
      destruct A as [A V]. split; [intros k K; rewrite LA, LB; now apply A|]. now rewrite LA, LB.
    - assert (KA : ~ known a def) by (intros K; destruct (checked_total _ _ K) as [y Y]; congruence).
      rewrite (checked_unknown _ _ KA) in EA. rewrite (checked_unknown b def); [congruence|]. intros K. apply KA. now apply KK.
  Qed.
  Lemma alike_required a b keys : strict = true \/ ~ In ign keys -> alike a b -> raise_exception_if_none a keys = raise_exception_if_none b keys.
  Proof.
    intros S A. induction keys as [|k keys IH]; [reflexivity|]. cbn [raise_exception_if_none].
    assert (IH' : raise_exception_if_none a keys = raise_exception_if_none b keys) by (apply IH; destruct S as [S|S]; [now left|right; intros I; apply S; now right]).
    destruct (String.eqb_spec k ign) as [E|K].
    - subst k. destruct S as [S|S]; [|exfalso; apply S; now left]. destruct A as [_ V]. unfold alike_value in V. unfold sget, dget.
      fold (slookup a ign) (slookup b ign). destruct (slookup a ign) as [x|], (slookup b ign) as [y|]; try contradiction; cbn [bind]; [|reflexivity].
      specialize (V S). destruct x, y; try exact IH'; try reflexivity; exfalso; destruct V as [V1 V2]; [discriminate V2|discriminate V1]; reflexivity.
    - rewrite (alike_sget a b k A K). destruct (sget b k) as [[v|]|e]; cbn [bind]; auto.
  Qed.
End Alike.
Lemma same_alike ign strict a b : same_keywords a b -> alike ign strict a b.
Proof. intros H. split; [intros k _; apply H|]. rewrite (H ign). apply alike_value_refl. Qed.
(** the same keywords after completion *)
Definition same_in (def a b : lkwargs) : Prop := (known a def <-> known b def) /\ same_keywords (a ++ def)%list (b ++ def)%list.
Lemma same_alike_in ign strict def a b : same_in def a b -> alike_in ign strict def a b.
Proof. intros [K H]. split; [exact K|now apply same_alike]. Qed.

(** ** LAL *)
Section LAL.
  Variable S : sources.
  Definition rel_once (x y : res (lkwargs * (list Q * modes))) : Prop :=
    match x, y with
    | Ok (ka, ra), Ok (kb, rb) => ra = rb /\ alike "mean_ano" true ka kb
    | Err e, Err e' => e = e'
    | _, _ => False
    end.
  Lemma once_alike a b : alike_in "mean_ano" true (published "LAL") a b -> rel_once (load_LAL_once S a) (load_LAL_once S b).
  Proof.
    intros A. unfold load_LAL_once. change lal_defaults with (published "LAL"). pose proof (alike_check _ _ a b (published "LAL") (published_nodup "LAL") A) as C.
    destruct (check_kwargs_and_set_defaults (Some a) (published "LAL")) as [x|e], (check_kwargs_and_set_defaults (Some b) (published "LAL")) as [y|e']; try contradiction; cbn [bind]; [|exact C].
    rewrite (alike_required _ _ x y _ (or_introl eq_refl) C).
    destruct (raise_exception_if_none y _) as [u|e] eqn:R; cbn [bind rel_once]; [|reflexivity].
    assert (R' : exists v, slookup y "mean_ano" = Some (Some v)) by (destruct u; apply (proj1 (raise_if_none_spec y _) R); cbn; tauto).
    assert (Rx : raise_exception_if_none x ["approximant"; "q"; "chi1"; "chi2"; "ecc"; "mean_ano"; "Momega0"] = Ok tt)
      by (rewrite (alike_required _ _ x y _ (or_introl eq_refl) C); now destruct u).
    assert (R'' : exists v, slookup x "mean_ano" = Some (Some v)) by (apply (proj1 (raise_if_none_spec x _) Rx); cbn; tauto).
    destruct R' as [vy Ry], R'' as [vx Rx']. apply sget_ok in Ry, Rx'. rewrite Ry, Rx'. unfold has_true.
    assert (G : forall k, k <> "mean_ano" -> sget x k = sget y k) by (intros k N; exact (alike_sget _ _ x y k C N)).
    rewrite (G "approximant"), (G "q"), (G "chi1"), (G "chi2"), (G "ecc"), (G "Momega0"), (G "deltaTOverM"), (G "physicalUnits"), (G "M"), (G "D") by discriminate.
    unfold load_LAL_waveform_using_hack.
    repeat match goal with |- rel_once (bind ?m _) (bind ?m _) => destruct m; cbn [bind]; [|reflexivity] end.
    cbn [rel_once]. auto.
  Qed.
  Lemma longer_alike f t0 : forall fuel a b cur, alike "mean_ano" true a b -> longer S fuel f t0 a cur = longer S fuel f t0 b cur.
  Proof.
    induction fuel as [|n IH]; intros a b cur A; cbn [longer]; [reflexivity|].
    destruct (get (fst cur) 0) as [z0|e]; cbn [bind]; [|reflexivity]. destruct (Qlt_bool t0 z0); [|reflexivity].
    rewrite (alike_sget _ _ a b "Momega0" A) by discriminate. destruct (do v <- sget b "Momega0"; num v) as [om|e]; cbn [bind]; [|reflexivity].
    assert (A' := alike_sset _ _ a b "Momega0" (Some (ANum (f * om)%Q)) A). pose proof (once_alike _ _ (alike_alike_in _ _ (published "LAL") _ _ A')) as R.
    destruct (load_LAL_once S (sset a _ _)) as [[ka ra]|e], (load_LAL_once S (sset b _ _)) as [[kb rb]|e']; cbn [rel_once] in R; try contradiction; cbn [bind snd]; [|now subst].
    destruct R as [-> _]. rewrite (IH _ _ rb A'). reflexivity.
  Qed.
  Lemma lal_alike fuel a b : alike_in "mean_ano" true (published "LAL") a b -> load_LAL_waveform S fuel a = load_LAL_waveform S fuel b.
  Proof.
    intros A. unfold load_LAL_waveform. pose proof (once_alike _ _ A) as R.
    destruct (load_LAL_once S a) as [[ka [t d]]|e], (load_LAL_once S b) as [[kb rb]|e']; cbn [rel_once] in R; try contradiction; cbn [bind]; [|now subst].
    destruct R as [<- C]. unfold has_true. rewrite (alike_sget _ _ ka kb "include_zero_ecc" C), (alike_sget _ _ ka kb "approximant" C) by discriminate.
    destruct (do v <- sget kb "include_zero_ecc"; Ok (on v)) as [z|e]; cbn [bind]; [|reflexivity]. destruct z; [|reflexivity].
    destruct (do v <- sget kb "approximant"; str v) as [ap|e]; cbn [bind]; [|reflexivity].
    match goal with |- context [load_LAL_once S (sset (sset ka ?k1 ?v1) ?k2 ?v2)] =>
      assert (A' := alike_sset _ _ _ _ k2 v2 (alike_sset _ _ ka kb k1 v1 C)); pose proof (once_alike _ _ (alike_alike_in _ _ (published "LAL") _ _ A')) as R;
      destruct (load_LAL_once S (sset (sset ka k1 v1) k2 v2)) as [[k1' r1]|e], (load_LAL_once S (sset (sset kb k1 v1) k2 v2)) as [[k2' r2]|e'] end;
      cbn [rel_once] in R; try contradiction; cbn [bind]; [|now subst].
    destruct R as [-> _]. cbn [snd]. destruct (get t 0); cbn [bind]; [|reflexivity]. now rewrite (longer_alike _ _ fuel _ _ r2 A').
  Qed.
End LAL.
