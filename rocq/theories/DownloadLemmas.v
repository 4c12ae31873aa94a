(** C89. *)
From Coq Require Import DecimalString Decimal Ascii Lia.
From Verif Require Import Base BaseLemmas UtilsModel UtilsLemmas MeasureModel LoadModel LoadSpec LoadLemmas LoadOther DownloadModel DownloadSpec.
Open Scope string_scope.
Open Scope nat_scope.

(** ** names *)
Lemma app_inj_l (a : string) : forall x y, (a ++ x = a ++ y)%string -> x = y.
Proof. induction a as [|c a IH]; intros x y E; [exact E|]. injection E as E. exact (IH _ _ E). Qed.
Lemma app_len (a b : string) : String.length (a ++ b) = String.length a + String.length b.
Proof. induction a as [|c a IH]; [reflexivity|]. cbn. now rewrite IH. Qed.
Lemma no_slash_uint u : ends_slash (NilEmpty.string_of_uint u) = false.
Proof. induction u; cbn [NilEmpty.string_of_uint ends_slash]; try reflexivity; destruct (NilEmpty.string_of_uint u); try reflexivity; exact IHu. Qed.
Lemma no_slash_int n : ends_slash (str_of_int n) = false /\ str_of_int n <> "".
Proof.
  unfold str_of_int, NilZero.string_of_int, NilZero.string_of_uint. assert (G : forall u, ends_slash match u with Nil => "0" | _ => NilEmpty.string_of_uint u end = false /\ match u with Nil => "0" | _ => NilEmpty.string_of_uint u end <> "").
  { intros u. pose proof (no_slash_uint u) as H. destruct u; (split; [first [reflexivity|exact H]|discriminate]). }
  destruct (Z.to_int n) as [u|u]; [apply G|]. destruct (G u) as [A B]. split; [|discriminate]. cbn [ends_slash]. destruct (match u with Nil => "0" | _ => NilEmpty.string_of_uint u end) eqn:E; [contradiction|exact A].
Qed.
Lemma ends_app a b : b <> "" -> ends_slash (a ++ b) = ends_slash b.
Proof. intros N. induction a as [|c a IH]; [reflexivity|]. cbn [append]. destruct (a ++ b) eqn:E; [destruct a, b; try discriminate; contradiction|]. cbn [ends_slash]. exact IH. Qed.
Lemma join_end a lev : let d := path_join a ("Lev" ++ str_of_int lev) in ends_slash d = false /\ d <> "".
Proof.
  cbv zeta. destruct (no_slash_int lev) as [E N]. assert (EL : ends_slash ("Lev" ++ str_of_int lev) = false) by (now rewrite ends_app).
  assert (NL : "Lev" ++ str_of_int lev <> "") by discriminate. unfold path_join. assert (ST : starts_slash ("Lev" ++ str_of_int lev) = false) by reflexivity. rewrite ST.
  destruct a as [|c a]; [auto|]. destruct (ends_slash (String c a)); (split; [|discriminate]).
  - now rewrite ends_app.
  - rewrite ends_app by discriminate. now rewrite ends_app.
Qed.
Lemma join_name d n : ends_slash d = false -> d <> "" -> starts_slash n = false -> path_join d n = d ++ "/" ++ n.
Proof. intros E N S. unfold path_join. rewrite S. destruct d; [contradiction|]. now rewrite E. Qed.

(** ** the disk *)
Lemma exists_present k p : path_exists k p = true <-> present k p.
Proof.
  unfold path_exists, present. destruct (content k p); [split; [left; discriminate|reflexivity]|]. rewrite existsb_exists. split.
  - intros (x & I & E). apply String.eqb_eq in E. subst x. now right.
  - intros [H|H]; [contradiction|]. exists p. split; [exact H|apply String.eqb_refl].
Qed.
Lemma exists_fetched k u p c q : path_exists (apply_event k (Fetched u p c)) q = (q =? p)%string || path_exists k q.
Proof. unfold path_exists, content. cbn [apply_event d_files d_dirs dlookup]. destruct (String.eqb_spec q p); reflexivity. Qed.
Lemma content_fetched k u p c q : content (apply_event k (Fetched u p c)) q = if (q =? p)%string then Some c else content k q.
Proof. reflexivity. Qed.
Lemma exists_made k d q : path_exists (apply_event k (MadeDir d)) q = path_exists k q || (q =? d)%string.
Proof. unfold path_exists, content. cbn [apply_event d_files d_dirs existsb]. destruct (dlookup String.eqb (d_files k) q); [reflexivity|]. apply orb_comm. Qed.
Lemma after_app k a b : after k (a ++ b)%list = after (after k a) b.
Proof. apply fold_left_app. Qed.
Lemma same_after k k' l : same_content k k' -> same_content (after k l) (after k' l).
Proof. revert k k'. induction l as [|e l IH]; intros k k' H; [exact H|]. apply IH. intros p. destruct e; [exact (H p)|]. rewrite !content_fetched. destruct (p =? p0)%string; [reflexivity|apply H]. Qed.
Lemma exists_mono k l q : path_exists k q = true -> path_exists (after k l) q = true.
Proof. revert k. induction l as [|e l IH]; intros k H; [exact H|]. apply IH. destruct e; [rewrite exists_made, H; reflexivity|rewrite exists_fetched, H; apply orb_true_r]. Qed.
Lemma dirs_mono k l d : In d (d_dirs k) -> In d (d_dirs (after k l)).
Proof. revert k. induction l as [|e l IH]; intros k H; [exact H|]. apply IH. destruct e; [now right|exact H]. Qed.

Section Fetch.
  Variable V : server.
  Variables dir lev : string.
  Lemma fetch_ext files names : forall k k', (forall p, path_exists k p = path_exists k' p) -> fetch_all V dir lev files names k = fetch_all V dir lev files names k'.
  Proof.
    induction names as [|n r IH]; intros k k' H; [reflexivity|]. cbn [fetch_all]. rewrite H. destruct (path_exists k' (path_join dir n)); [now apply IH|].
    destruct (do f <- sget files ("Lev" ++ lev ++ ":" ++ n); _) as [[u c]|e]; [|reflexivity]. rewrite (IH _ (apply_event k' (Fetched u (path_join dir n) c))); [reflexivity|]. intros p. now rewrite !exists_fetched, H.
  Qed.
  Lemma fetch_resume files names : forall k evs, fetch_all V dir lev files names k = (evs, Ok tt) -> forall n, fetch_all V dir lev files names (after k (firstn n evs)) = (skipn n evs, Ok tt).
  Proof.
    induction names as [|m r IH]; intros k evs H n; cbn [fetch_all] in *.
    - injection H as <-. now rewrite skipn_nil.
    - destruct (path_exists k (path_join dir m)) eqn:E; [rewrite (exists_mono _ _ _ E); now apply IH|].
      destruct (do f <- sget files ("Lev" ++ lev ++ ":" ++ m); _) as [[u c]|e] eqn:G; [|discriminate]. destruct (fetch_all V dir lev files r (apply_event k (Fetched u (path_join dir m) c))) as [x y] eqn:F. cbn [fst snd] in H. injection H as <- ->.
      destruct n as [|n].
      + cbn [firstn after fold_left skipn]. rewrite E. try rewrite G. rewrite F. reflexivity.
      + change (after k (firstn (S n) (Fetched u (path_join dir m) c :: x))) with (after (apply_event k (Fetched u (path_join dir m) c)) (firstn n x)).
        rewrite exists_mono by (rewrite exists_fetched, String.eqb_refl; reflexivity). cbn [skipn]. exact (IH _ _ F n).
  Qed.
  Lemma fetch_kept files names : forall k n p c, content k p = Some c -> content (after k (firstn n (fst (fetch_all V dir lev files names k)))) p = Some c.
  Proof.
    induction names as [|m r IH]; intros k n p c H; cbn [fetch_all fst].
    - now rewrite firstn_nil.
    - destruct (path_exists k (path_join dir m)) eqn:E; [now apply IH|]. destruct (do f <- sget files ("Lev" ++ lev ++ ":" ++ m); _) as [[u c']|e]; [|cbn [fst]; now rewrite firstn_nil].
      cbn [fst]. destruct n as [|n]; [exact H|]. cbn [firstn after fold_left]. apply IH. rewrite content_fetched. destruct (String.eqb_spec p (path_join dir m)) as [->|N]; [|exact H].
      unfold path_exists in E. rewrite H in E. discriminate.
  Qed.
  Lemma fetch_other files names : forall k p, ~ In p (map (path_join dir) names) -> content (after k (fst (fetch_all V dir lev files names k))) p = content k p.
  Proof.
    induction names as [|m r IH]; intros k p N; cbn [fetch_all]; [reflexivity|]. cbn [map In] in N. destruct (path_exists k (path_join dir m)); [apply IH; tauto|].
    destruct (do f <- sget files ("Lev" ++ lev ++ ":" ++ m); _) as [[u c]|e]; [|reflexivity]. cbn [fst after fold_left]. change (content (after (apply_event k (Fetched u (path_join dir m) c)) (fst (fetch_all V dir lev files r (apply_event k (Fetched u (path_join dir m) c))))) p = content k p).
    rewrite IH by tauto. rewrite content_fetched. destruct (String.eqb_spec p (path_join dir m)) as [->|_]; [tauto|reflexivity].
  Qed.
  Lemma fetch_all_ok files names : forall k evs, NoDup (map (path_join dir) names) -> fetch_all V dir lev files names k = (evs, Ok tt) ->
    fetches evs = filter (fun p => negb (path_exists k p)) (map (path_join dir) names) /\
    forall n, In n names -> if path_exists k (path_join dir n) then content (after k evs) (path_join dir n) = content k (path_join dir n) else
      exists f u c, slookup files ("Lev" ++ lev ++ ":" ++ n) = Some f /\ slookup f "link" = Some u /\ sv_fetch V u = Ok c /\ content (after k evs) (path_join dir n) = Some c.
  Proof.
    induction names as [|m r IH]; intros k evs ND H; cbn [fetch_all] in H.
    - injection H as <-. split; [reflexivity|intros n []].
    - cbn [map] in ND. apply NoDup_cons_iff in ND. destruct ND as [NI ND]. cbn [map filter]. destruct (path_exists k (path_join dir m)) eqn:E.
      + cbn [negb]. destruct (IH k evs ND H) as [A B]. split; [exact A|]. intros n [<-|I]; [|exact (B n I)]. rewrite E. pose proof (fetch_other files r k _ NI) as O. rewrite H in O. exact O.
      + cbn [negb]. destruct (do f <- sget files ("Lev" ++ lev ++ ":" ++ m); _) as [[u c]|e] eqn:G; [|discriminate].
        set (k1 := apply_event k (Fetched u (path_join dir m) c)) in *. destruct (fetch_all V dir lev files r k1) as [x y] eqn:F. cbn [fst snd] in H. injection H as <- ->. destruct (IH k1 x ND F) as [A B].
        assert (SAME : forall n, In n r -> path_exists k1 (path_join dir n) = path_exists k (path_join dir n) /\ content k1 (path_join dir n) = content k (path_join dir n)).
        { intros n I. unfold k1. rewrite exists_fetched, content_fetched. destruct (String.eqb_spec (path_join dir n) (path_join dir m)) as [X|X]; [|split; reflexivity]. exfalso. apply NI. rewrite <- X. now apply in_map. }
        split.
        * cbn [fetches flat_map app]. f_equal. change (fetches x = filter (fun p => negb (path_exists k p)) (map (path_join dir) r)). rewrite A. apply filter_ext_in. intros p P. apply in_map_iff in P. destruct P as (n & <- & I). now rewrite (proj1 (SAME n I)).
        * intros n [<-|I].
          -- rewrite E. apply bind_ok in G. destruct G as (f & G1 & G). apply bind_ok in G. destruct G as (u' & G2 & G). apply bind_ok in G. destruct G as (c' & G3 & G). apply Ok_inj in G. injection G as -> ->. apply sget_ok in G1, G2.
             exists f, u, c. do 3 (split; [assumption|]). change (content (after k1 x) (path_join dir m) = Some c). pose proof (fetch_other files r k1 _ NI) as O. rewrite F in O. cbn [fst] in O. rewrite O. unfold k1. rewrite content_fetched, String.eqb_refl. reflexivity.
          -- specialize (B n I). rewrite (proj1 (SAME n I)), (proj2 (SAME n I)) in B. exact B.
  Qed.
End Fetch.
Lemma fetch_prefix V V' dir lev files names : flaky V V' -> forall k, exists m, fst (fetch_all V' dir lev files names k) = firstn m (fst (fetch_all V dir lev files names k)).
Proof.
  intros (_ & _ & FF). induction names as [|n r IH]; intros k; cbn [fetch_all]; [exists 0; reflexivity|]. destruct (path_exists k (path_join dir n)); [apply IH|].
  destruct (do f <- sget files ("Lev" ++ lev ++ ":" ++ n); do u <- sget f "link"; do c <- sv_fetch V' u; Ok (u, c)) as [[u c]|e] eqn:G; [|exists 0; reflexivity].
  apply bind_ok in G. destruct G as (f & G1 & G). apply bind_ok in G. destruct G as (u' & G2 & G). apply bind_ok in G. destruct G as (c' & G3 & G). apply Ok_inj in G. injection G as -> ->. apply FF in G3.
  rewrite G1. cbn [bind]. rewrite G2. cbn [bind]. rewrite G3. cbn [bind fst]. destruct (IH (apply_event k (Fetched u (path_join dir n) c))) as [m M]. exists (S m). cbn [firstn]. now rewrite M.
Qed.

Lemma strain_ext o : "Strain_N" ++ str_of_int o ++ ".h5" <> "Strain_N" ++ str_of_int o ++ ".json".
Proof. intros E. do 2 apply app_inj_l in E. discriminate. Qed.
Section Call.
  Variables (V : server) (id : string) (lev : Z) (data_dir : string) (order : Z) (tag : string).
  Notation call := (download_sxs_waveform V id lev data_dir order tag).
  Notation dir := (target_dir V id lev data_dir).
  Lemma dest n : wanted_files order n -> path_join dir n = dir ++ "/" ++ n.
  Proof. intros W. destruct (join_end (path_join (sv_expand V data_dir) (replace_colon id)) lev) as [E N]. apply join_name; [exact E|exact N|]. destruct W as [->|[->|[->| ->]]]; reflexivity. Qed.
  Lemma names_wanted n : In n (sxs_filenames order) <-> wanted_files order n.
  Proof. unfold sxs_filenames, wanted_files. cbn. split; intuition congruence. Qed.
  Lemma dests_nodup : NoDup (map (path_join dir) (sxs_filenames order)).
  Proof.
    assert (E : map (path_join dir) (sxs_filenames order) = map (fun n => dir ++ "/" ++ n) (sxs_filenames order)).
    { apply map_ext_in. intros n I. apply dest. now apply names_wanted. }
    rewrite E. assert (ND : NoDup (sxs_filenames order)).
    { unfold sxs_filenames. repeat constructor; cbn [In]; intuition (try discriminate). eapply strain_ext; eauto. }
    clear E. induction ND as [|n l NI ND IH]; [constructor|]. cbn [map]. constructor; [|exact IH]. rewrite in_map_iff. intros (m & M & I). do 2 apply app_inj_l in M. now subst m.
  Qed.
  Lemma dest_dir n : dir ++ "/" ++ n <> dir.
  Proof. intros E. apply (f_equal String.length) in E. rewrite !app_len in E. cbn in E. lia. Qed.
  Lemma call_inv k evs d : call k = (evs, Ok d) -> d = dir /\ content k dir = None /\ exists cat s files x, sv_catalog V tag = Ok cat /\ slookup cat id = Some s /\ files = match s with None => [] | Some f => f end /\
    evs = MadeDir dir :: x /\ fetch_all V dir (str_of_int lev) files (sxs_filenames order) (apply_event k (MadeDir dir)) = (x, Ok tt).
  Proof.
    unfold download_sxs_waveform. cbv zeta. destruct (content k dir) eqn:C; [discriminate|]. destruct (sv_catalog V tag) as [cat|e]; [|discriminate]. cbn [bind]. destruct (slookup cat id) as [s|] eqn:L; [|discriminate].
    destruct (fetch_all V dir (str_of_int lev) _ (sxs_filenames order) (apply_event k (MadeDir dir))) as [x y] eqn:F. cbn [fst snd]. destruct y as [[]|e]; [|discriminate]. cbn [bind]. intros H. injection H as <- <-.
    split; [reflexivity|]. split; [reflexivity|]. exists cat, s. eexists. exists x. do 4 (split; [first [reflexivity|assumption]|]). exact F.
  Qed.
  Lemma made_content k p : content (apply_event k (MadeDir dir)) p = content k p.
  Proof. reflexivity. Qed.
  Lemma fetched_all k evs d : call k = (evs, Ok d) ->
    d = dir /\ present (after k evs) dir /\
    (forall n, wanted_files order n -> present (after k evs) (dir ++ "/" ++ n) /\
       (present k (dir ++ "/" ++ n) -> content (after k evs) (dir ++ "/" ++ n) = content k (dir ++ "/" ++ n) /\ ~ In (dir ++ "/" ++ n) (fetches evs)) /\
       (~ present k (dir ++ "/" ++ n) -> (exists c, offered V tag id lev n c /\ content (after k evs) (dir ++ "/" ++ n) = Some c) /\ In (dir ++ "/" ++ n) (fetches evs))) /\
    NoDup (fetches evs) /\
    (forall p, (forall n, wanted_files order n -> p <> dir ++ "/" ++ n) -> content (after k evs) p = content k p /\ ~ In p (fetches evs)).
  Proof.
    intros H. apply call_inv in H. destruct H as (-> & C & cat & s & files & x & CA & L & FI & -> & F). set (k1 := apply_event k (MadeDir dir)) in *.
    destruct (fetch_all_ok V dir (str_of_int lev) files _ k1 x dests_nodup F) as [A B]. change (fetches (MadeDir dir :: x)) with (fetches x). change (after k (MadeDir dir :: x)) with (after k1 x).
    assert (EX : forall n, path_exists k1 (dir ++ "/" ++ n) = path_exists k (dir ++ "/" ++ n)).
    { intros n. unfold k1. rewrite exists_made. destruct (String.eqb_spec (dir ++ "/" ++ n) dir) as [X|X]; [destruct (dest_dir _ X)|apply orb_false_r]. }
    split; [reflexivity|]. split; [right; apply dirs_mono; now left|]. split; [|split].
    - intros n W. pose proof (dest n W) as D. apply names_wanted in W. specialize (B n W). rewrite D, EX in B.
      assert (IF : In (dir ++ "/" ++ n) (fetches x) <-> path_exists k (dir ++ "/" ++ n) = false).
      { rewrite A, filter_In, EX, negb_true_iff. split; [tauto|]. intros X. split; [|exact X]. rewrite <- D. now apply in_map. }
      destruct (path_exists k (dir ++ "/" ++ n)) eqn:P.
      + split; [apply exists_present; apply exists_mono; now rewrite EX|]. split; [intros _; split; [exact B|rewrite IF; discriminate]|]. intros X. exfalso. apply X. now apply exists_present.
      + destruct B as (f & u & c & B1 & B2 & B3 & B4). split; [left; rewrite B4; discriminate|]. split; [intros X; apply exists_present in X; congruence|]. intros _. split; [|now apply IF].
        exists c. split; [|exact B4]. destruct s as [fs|]; [|subst files; discriminate]. subst files. exists cat, fs, f, u. auto.
    - rewrite A. apply NoDup_filter. exact dests_nodup.
    - intros p N. assert (NI : ~ In p (map (path_join dir) (sxs_filenames order))).
      { rewrite in_map_iff. intros (n & E & I). apply names_wanted in I. rewrite (dest n I) in E. exact (N n I (eq_sym E)). }
      split; [pose proof (fetch_other V dir (str_of_int lev) files _ k1 p NI) as O; rewrite F in O; exact O|]. rewrite A, filter_In. tauto.
  Qed.
  Lemma kept k n p c : content k p = Some c -> content (after k (firstn n (fst (call k)))) p = Some c.
  Proof.
    intros H. unfold download_sxs_waveform. cbv zeta. destruct (content k dir); [cbn [fst]; now rewrite firstn_nil|].
    destruct (do cat <- sv_catalog V tag; _) as [files|e]; cbn [fst]; (destruct n as [|n]; [exact H|]); cbn [firstn].
    - change (content (after (apply_event k (MadeDir dir)) (firstn n (fst (fetch_all V dir (str_of_int lev) files (sxs_filenames order) (apply_event k (MadeDir dir)))))) p = Some c). now apply fetch_kept.
    - now rewrite firstn_nil.
  Qed.
  Lemma resume_once k evs d n : call k = (evs, Ok d) -> exists evs', call (after k (firstn n evs)) = (evs', Ok d) /\ fetches evs = (fetches (firstn n evs) ++ fetches evs')%list /\ same_content (after (after k (firstn n evs)) evs') (after k evs).
  Proof.
    intros H. pose proof (fetched_all _ _ _ H) as (_ & _ & _ & _ & OT). pose proof H as H0. apply call_inv in H. destruct H as (-> & C & cat & s & files & x & CA & L & FI & EV & F). destruct n as [|n]; [exists evs; split; [exact H0|split; [reflexivity|intros p; reflexivity]]|].
    rewrite EV. cbn [firstn]. set (k1 := apply_event k (MadeDir dir)) in *. change (after k (MadeDir dir :: firstn n x)) with (after k1 (firstn n x)). set (k2 := after k1 (firstn n x)).
    assert (NC : content k2 dir = None).
    { destruct (content k2 dir) as [c|] eqn:E; [exfalso|reflexivity]. assert (E2 : content (after k evs) dir = Some c).
      { rewrite EV. change (content (after k1 x) dir = Some c). rewrite <- (firstn_skipn n x), after_app. fold k2. pose proof (fetch_resume V dir _ files _ k1 x F n) as R. fold k2 in R.
        pose proof (fetch_kept V dir (str_of_int lev) files (sxs_filenames order) k2 (length (skipn n x)) dir c E) as K. rewrite R in K. cbn [fst] in K. now rewrite firstn_all in K. }
      destruct (OT dir) as [X _]; [intros m _ Y; exact (dest_dir m (eq_sym Y))|]. congruence. }
    assert (ID : In dir (d_dirs k2)) by (apply dirs_mono; now left).
    assert (R : fetch_all V dir (str_of_int lev) files (sxs_filenames order) (apply_event k2 (MadeDir dir)) = (skipn n x, Ok tt)).
    { rewrite (fetch_ext V dir (str_of_int lev) files _ _ k2); [exact (fetch_resume V dir _ files _ k1 x F n)|]. intros p. rewrite exists_made. destruct (String.eqb_spec p dir) as [->|N]; [|apply orb_false_r].
      rewrite orb_true_r. symmetry. apply exists_present. now right. }
    exists (MadeDir dir :: skipn n x). split; [|split].
    - unfold download_sxs_waveform. cbv zeta. rewrite NC, CA. cbn [bind]. rewrite L. rewrite <- FI, R. reflexivity.
    - cbn [fetches flat_map app]. change (fetches x = (fetches (firstn n x) ++ fetches (skipn n x))%list). unfold fetches. now rewrite <- flat_map_app, firstn_skipn.
    - change (after k2 (MadeDir dir :: skipn n x)) with (after (apply_event k2 (MadeDir dir)) (skipn n x)). change (after k (MadeDir dir :: x)) with (after k1 x).
      intros p. rewrite (same_after (apply_event k2 (MadeDir dir)) k2 (skipn n x) (fun q => eq_refl) p). unfold k2. rewrite <- after_app, firstn_skipn. reflexivity.
  Qed.
  Lemma again k evs d : call k = (evs, Ok d) -> exists evs', call (after k evs) = (evs', Ok d) /\ fetches evs' = [] /\ same_content (after (after k evs) evs') (after k evs).
  Proof.
    intros H. destruct (resume_once k evs d (length evs) H) as (evs' & A & B & C). rewrite firstn_all in *. exists evs'. split; [exact A|]. split; [|exact C].
    apply (f_equal (@length _)) in B. rewrite app_length in B. destruct (fetches evs'); [reflexivity|cbn in B; lia].
  Qed.
  Lemma call_prefix V' k evs d : flaky V V' -> call k = (evs, Ok d) -> exists m, fst (download_sxs_waveform V' id lev data_dir order tag k) = firstn m evs.
  Proof.
    intros FL H. apply call_inv in H. destruct H as (-> & C & cat & s & files & x & CA & L & FI & -> & F). pose proof FL as (EX & CT & _).
    unfold download_sxs_waveform. cbv zeta. assert (TD : target_dir V' id lev data_dir = dir) by (unfold target_dir; now rewrite EX). rewrite TD, C.
    destruct (sv_catalog V' tag) as [cat'|e] eqn:CA'; cbn [bind]; [|exists 1; reflexivity]. apply CT in CA'. rewrite CA in CA'. apply Ok_inj in CA'. subst cat'. rewrite L, <- FI. cbn [fst].
    destruct (fetch_prefix V V' dir (str_of_int lev) files (sxs_filenames order) FL (apply_event k (MadeDir dir))) as [m M]. rewrite F in M. cbn [fst] in M. exists (S m). cbn [firstn]. now rewrite M.
  Qed.
  Lemma resume k k' evs d : call k = (evs, Ok d) -> attempts V id lev data_dir order tag k k' -> exists evs', call k' = (evs', Ok d) /\ same_content (after k' evs') (after k evs) /\ incl (fetches evs') (fetches evs).
  Proof.
    intros H A. revert evs H. induction A as [k|k V' n k' FL A IH]; intros evs H; [exists evs; split; [exact H|split; [intros p; reflexivity|apply incl_refl]]|].
    destruct (call_prefix V' k evs d FL H) as [m M]. rewrite M, firstn_firstn in *. destruct (resume_once k evs d (Nat.min n m) H) as (evs1 & C1 & F1 & S1).
    destruct (IH evs1 C1) as (evs' & C' & S' & I'). exists evs'. split; [exact C'|]. split; [intros p; rewrite (S' p); apply S1|]. intros p P. rewrite F1. apply in_or_app. right. exact (I' p P).
  Qed.
  Lemma unknown_id k cat : content k dir = None -> sv_catalog V tag = Ok cat -> slookup cat id = None -> snd (call k) = Err ValueError /\ fetches (fst (call k)) = [] /\ present (after k (fst (call k))) dir.
  Proof.
    intros C CA L. unfold download_sxs_waveform. cbv zeta. rewrite C, CA. cbn [bind]. rewrite L. cbn [fst snd]. split; [reflexivity|]. split; [reflexivity|]. right. now left.
  Qed.
  Lemma enough S k evs d u : call k = (evs, Ok d) -> reads S (after k evs) d order -> asked "SXSCatalog" u "extrap_order" (Some (ANum (inject_Z order))) ->
    so_dir S d = true /\ so_exists S d FHorizons = true /\ forall f, needs "SXSCatalog" u f -> so_exists S d f = true.
  Proof.
    intros H (R1 & R2 & R3 & R4 & R5) A. destruct (fetched_all _ _ _ H) as (-> & P & W & _). split; [now apply R1|]. split; [apply R5; apply (W "Horizons.h5"); right; right; right; reflexivity|]. intros f N. cbn [needs] in N. destruct N as [(o & O & [->| ->])|[-> _]].
    - unfold asked in A, O. rewrite A in O. injection O as <-. apply R2. apply (W ("Strain_N" ++ str_of_int order ++ ".h5")%string). now left.
    - unfold asked in A, O. rewrite A in O. injection O as <-. apply R3. apply (W ("Strain_N" ++ str_of_int order ++ ".json")%string). right. now left.
    - apply R4. apply (W "metadata.json"). right. right. now left.
  Qed.
End Call.

(** ** The directory *)
Lemma ends_slash_ok : forall s, ends_slash s = true -> ends_with_slash s.
Proof.
  induction s as [|c s IH]; [intros X; discriminate X|]. cbn. destruct s as [|c' s]; intros H.
  - apply Ascii.eqb_eq in H. subst. exists "". reflexivity.
  - destruct (IH H) as [r ->]. exists (String c r). reflexivity.
Qed.
Lemma starts_slash_ok s : starts_slash s = true -> starts_with_slash s.
Proof. destruct s as [|c s]; [intros X; discriminate X|]. cbn. intros H. apply Ascii.eqb_eq in H. subst. exists s. reflexivity. Qed.
Lemma join_plain a b : a <> "" -> ~ ends_with_slash a -> ~ starts_with_slash b -> path_join a b = a ++ "/" ++ b.
Proof.
  intros A E B. unfold path_join. destruct (starts_slash b) eqn:SB; [apply starts_slash_ok in SB; contradiction|]. destruct a as [|c a]; [congruence|].
  destruct (ends_slash (String c a)) eqn:EA; [apply ends_slash_ok in EA; contradiction|]. reflexivity.
Qed.
Lemma replace_get : forall s, underscored s (replace_colon s).
Proof. intros s. unfold underscored. induction s as [|c s IH]; intros [|i]; cbn; try reflexivity. apply IH. Qed.
Lemma replace_ends : forall s, ends_with_slash (replace_colon s) -> ends_with_slash s.
Proof.
  induction s as [|c s IH]; intros [r E]; [destruct r; discriminate E|]. cbn in E. destruct r as [|c' r]; cbn in E; injection E as E1 E2.
  - destruct s; [|discriminate E2]. destruct (Ascii.eqb_spec c ":"%char) as [->|N]; [discriminate E1|]. subst. exists "". reflexivity.
  - destruct (IH (ex_intro _ r E2)) as [r' ->]. exists (String c r'). reflexivity.
Qed.
Lemma replace_starts s : starts_with_slash (replace_colon s) -> starts_with_slash s.
Proof.
  intros [r E]. destruct s as [|c s]; [discriminate E|]. cbn in E. injection E as E1 E2. destruct (Ascii.eqb_spec c ":"%char) as [->|N]; [discriminate E1|]. subst. now exists s.
Qed.
Lemma sapp_assoc a b c : ((a ++ b) ++ c = a ++ b ++ c)%string.
Proof. induction a as [|x a IH]; [reflexivity|]. cbn. now rewrite IH. Qed.
Lemma app_nonempty a b : b <> "" -> (a ++ b)%string <> "".
Proof. destruct a; [auto|discriminate]. Qed.
Lemma slash_app a b : b <> "" -> ends_with_slash (a ++ b) -> ends_with_slash b.
Proof.
  intros N. induction a as [|c a IH]; intros [r E]; [now exists r|]. destruct r as [|c' r]; cbn in E; injection E as E1 E2.
  - exfalso. now apply (app_nonempty a b N).
  - apply IH. now exists r.
Qed.
Lemma directory V id lev data_dir order tag k evs d : download_sxs_waveform V id lev data_dir order tag k = (evs, Ok d) ->
  sv_expand V data_dir <> "" -> ~ ends_with_slash (sv_expand V data_dir) -> id <> "" -> ~ starts_with_slash id -> ~ ends_with_slash id ->
  exists id', underscored id id' /\ d = sv_expand V data_dir ++ "/" ++ id' ++ "/Lev" ++ NilZero.string_of_int (Z.to_int lev).
Proof.
  intros H N1 E1 N2 S2 E2. apply fetched_all in H. destruct H as [-> _]. exists (replace_colon id). split; [apply replace_get|].
  assert (N3 : replace_colon id <> "") by (destruct id; [congruence|discriminate]).
  unfold target_dir. rewrite (join_plain (sv_expand V data_dir)); [|exact N1|exact E1|intros X; apply S2, replace_starts, X].
  rewrite join_plain.
  - unfold str_of_int. rewrite !sapp_assoc. reflexivity.
  - apply app_nonempty. discriminate.
  - intros X. apply slash_app in X; [|discriminate]. apply (slash_app "/") in X; [|exact N3]. apply E2, replace_ends, X.
  - intros [r X]. discriminate X.
Qed.
Lemma slash_end s : ends_with_slash s -> ends_slash s = true.
Proof. intros [r ->]. induction r as [|c r IH]; [reflexivity|]. cbn. destruct (r ++ "/")%string eqn:E; [destruct r; discriminate E|exact IH]. Qed.
