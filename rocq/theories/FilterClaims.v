(** The statements of Props_Filter.v that need more than one lemma, and the facts behind its examples. *)
From Coq Require Import Lia Lqa Sorted.
From Verif Require Import Base BaseLemmas UtilsModel UtilsSpec ExtremaLemmas MeasureModel AverageLemmas SegmentModel SegmentLemmas DataModel DataSpec DataLemmas
  DataLemmas2 DataTotal Toy InitModel InitSpec InitLemmas InitToy FitsSpec FilterModel FilterSpec FilterLemmas FilterCombine FilterSweep FilterApply FilterCheck FilterFinds FilterToy.
Open Scope string_scope.
Open Scope nat_scope.

Section Claims.
  Variable F : fourier.
  Context {C : Type}.
  Implicit Types d : sdict (dval C).

  Lemma made_subject d tag given kw o amp b : filter_options_of kw = Ok o -> snd (make_filter F d tag given o amp) = Ok b -> subject F d tag given kw amp b.
  Proof.
    intros O H. destruct (made F d tag given kw o amp b O H) as (T & chk & fsp & x & y & u & v & X). split; [exact T|]. exists chk, fsp, x, y, u, v, (k_threshold o).
    destruct X as (X1 & X2 & X). apply options_read in O. destruct O as [O _]. split; [exact X1|]. split; [exact X2|]. split; [exact O|]. exact X.
  Qed.
  Lemma contract fuel d tag given kw w r : check_and_filter F fuel d tag given kw = (w, Ok r) ->
    exists o ba bo ra ro, reads kw o /\ subject F d tag given kw true ba /\ subject F d tag given kw false bo /\
      outcome r ("amp_gw" ++ tag) (ob_data ba) ra /\ outcome r ("omega_gw" ++ tag) (ob_data bo) ro /\
      (forall b res, (b = ba /\ res = ra) \/ (b = bo /\ res = ro) ->
         match res with
         | Some x => ob_required b = true /\ k_skip o = false /\ apply_filter F fuel b o = Ok x
         | None => ob_required b = false \/ k_skip o = true
         end) /\
      (exists pho, combined [] d ("phaselm" ++ tag) (fun p q => (1 # 2) * (p - q))%Q pho /\
         slookup r ("phase_gw" ++ tag ++ "_original") = Some (FArr pho) /\
         match ro with
         | Some (y, _) => exists t t0 t1 p, times_of d t /\ nth_error t 0 = Some t0 /\ nth_error t 1 = Some t1 /\ accumulated y p (t1 - t0) /\
                            slookup r ("phase_gw" ++ tag ++ "_filtered") = Some (FArr p) /\ slookup r ("phase_gw" ++ tag) = Some (FArr p)
         | None => slookup r ("phase_gw" ++ tag ++ "_filtered") = Some FNone /\ slookup r ("phase_gw" ++ tag) = Some (FArr pho)
         end) /\
      NoDup (map fst r) /\ (forall k, In k (map fst r) <-> In k (result_keys tag)).
  Proof.
    intros H. destruct (filter_result F fuel d tag given kw w r H) as (o & ba & bo & ra & ro & pho & Eo & Ma & Mo & OA & OO & RR & PH & P0 & PP & ND & KK).
    destruct (made F d tag given kw o true ba Eo Ma) as (Tg & _).
    exists o, ba, bo, ra, ro. split; [exact (options_read kw o Eo)|]. split; [now apply (made_subject d tag given kw o)|]. split; [now apply (made_subject d tag given kw o)|].
    repeat (split; [assumption|]). split; [exists pho; auto|]. split; [exact ND|]. intros k. rewrite KK. destruct Tg as [<-|[<-|[]]]; cbn; tauto.
  Qed.
  Lemma same_choice fuel d tag given kw w r s : check_and_filter F fuel d tag given kw = (w, Ok r) ->
    slookup kw "data_type_for_filter_requirement_check" = Some (LStr s) ->
    (slookup r ("amp_gw" ++ tag ++ "_filtered") = Some FNone <-> slookup r ("omega_gw" ++ tag ++ "_filtered") = Some FNone) /\
    (slookup r ("omega_gw" ++ tag ++ "_filtered") = Some FNone <-> slookup r ("phase_gw" ++ tag ++ "_filtered") = Some FNone).
  Proof.
    intros H K. destruct (filter_result F fuel d tag given kw w r H) as (o & ba & bo & ra & ro & pho & Eo & Ma & Mo & (_ & OA) & (_ & OO) & RR & PH & P0 & PP & _).
    assert (V := same_verdict F d tag given kw o ba bo s Eo K Ma Mo). assert (R1 := RR ba ra (or_introl (conj eq_refl eq_refl))). assert (R2 := RR bo ro (or_intror (conj eq_refl eq_refl))).
    destruct (made F d tag given kw o true ba Eo Ma) as (Tg & _).
    assert (E1 : slookup r ("amp_gw" ++ tag ++ "_filtered") = match ra with Some (y, _) => Some (FArr y) | None => Some FNone end).
    { destruct Tg as [<-|[<-|[]]]; destruct ra as [[y sg]|]; cbn in OA |- *; tauto. }
    assert (E2 : slookup r ("omega_gw" ++ tag ++ "_filtered") = match ro with Some (y, _) => Some (FArr y) | None => Some FNone end).
    { destruct Tg as [<-|[<-|[]]]; destruct ro as [[y sg]|]; cbn in OO |- *; tauto. }
    assert (E3 : slookup r ("phase_gw" ++ tag ++ "_filtered") = Some FNone <-> ro = None).
    { destruct ro as [[y sg]|]; [destruct PP as (? & ? & ? & q & _ & _ & _ & _ & -> & _); split; discriminate|destruct PP as [-> _]; tauto]. }
    rewrite E1, E2, E3. split.
    - destruct ra as [[y sg]|], ro as [[y' sg']|]; [split; discriminate|destruct R1 as (A1 & A2 & _), R2 as [R2|R2]; congruence|destruct R2 as (A1 & A2 & _), R1 as [R1|R1]; congruence|tauto].
    - destruct ro as [[y' sg']|]; split; congruence.
  Qed.
  (** the loop and its end *)
  Lemma swept fuel b o y l : increasing (ob_t b) -> length (ob_data b) = length (ob_t b) -> apply_filter F fuel b o = Ok (y, l) ->
    exists t0 tn cs, nth_error (ob_t b) 0 = Some t0 /\ nth_error (ob_t b) (length (ob_t b) - 1) = Some tn /\
      centres (fun c => k_alpha o * ob_delta_T b c)%Q t0 tn cs /\ length l = length cs /\
      (forall k c, nth_error cs k = Some c -> exists s j, nth_error l k = Some s /\
         cut (ob_t b) (ob_data b) (c - (1 # 2) * k_size o * ob_delta_T b c) (c + (1 # 2) * k_size o * ob_delta_T b c) (sg_t s) (sg_data s) j /\ 2 <= length (sg_t s)).
  Proof.
    intros I L H. destruct (applied F b o I L fuel y l H) as (t0 & tn & cs & js & T0 & Tn & CC & Lc & Lj & Hs & _).
    exists t0, tn, cs. repeat (split; [assumption|]). split; [congruence|]. intros k c Hc.
    assert (k < length cs) by (apply nth_error_Some; congruence). destruct (nth_error l k) as [s|] eqn:A1; [|apply nth_error_None in A1; lia].
    destruct (nth_error js k) as [j|] eqn:A2; [|apply nth_error_None in A2; lia]. exists s, j. split; [reflexivity|].
    destruct (Hs k c s j Hc A1 A2) as (X1 & X2 & _). auto.
  Qed.
  Lemma recombined_averaged t l : window (fo_hanning F) -> increasing t -> Forall (fun p => placed t (fst p) (snd p)) l ->
    match combine_segments F t (map fst l) with
    | Ok r => length r = length t /\ forall i v, nth_error r i = Some v ->
        averaged (fo_hanning F) l i v \/
        (~ covered (fo_hanning F) l i /\ filled t r (fun c => c < length t /\ covered (fo_hanning F) l c) i)
    | Err e => e = ValueError /\ forall i, i < length t -> ~ covered (fo_hanning F) l i
    end.
  Proof.
    intros W I P.
    assert (D : forall n, (exists i, i < n /\ covered (fo_hanning F) l i) \/ forall i, i < n -> ~ covered (fo_hanning F) l i).
    { induction n as [|n [(i & H1 & H2)|Hn]]; [right; intros; lia|left; exists i; auto|].
      destruct (Qlt_le_dec 0 (total_weight (shares (fo_hanning F) n l))) as [G|G]; [left; exists n; auto|].
      right. intros i Hi. destruct (Nat.eq_dec i n) as [->|]; [unfold covered; lra|apply Hn; lia]. }
    destruct (D (length t)) as [X|X].
    - destruct (recombined F W t l I P X) as (r & -> & Lr & Hr). split; [exact Lr|]. intros i v Hv. destruct (Hr i v Hv) as [[A B]|H]; [left; split; assumption|right; exact H].
    - rewrite (uncovered F W t l I P X). auto.
  Qed.
End Claims.

(** ** facts behind the examples *)
Lemma fx_window : window (fo_hanning fx).
Proof.
  intros n. split; [cbn; now rewrite map_length, seq_length|]. cbn. apply Forall_forall. intros w H. apply in_map_iff in H. destruct H as (k & <- & _).
  destruct (_ && _); lra.
Qed.
Lemma fx_hann : hann_like (fo_hanning fx).
Proof.
  intros n k w H. cbn [fo_hanning fx] in H. rewrite nth_error_map in H. assert (k < n). { destruct (Nat.lt_ge_cases k n) as [|G]; [assumption|]. rewrite (proj2 (nth_error_None (seq 0 n) k)) in H; [discriminate|rewrite seq_length; lia]. }
  replace (nth_error (seq 0 n) k) with (Some k) in H. 2:{ symmetry. rewrite (nth_error_nth' _ 0) by (rewrite seq_length; lia). now rewrite seq_nth. }
  cbn [option_map] in H. apply Some_inj in H. subst w. split.
  - intros [A B]. destruct (Nat.eqb_spec k 0); [lia|]. destruct (Nat.eqb_spec (S k) n); [lia|]. cbn [orb]. destruct (1 <? n); cbn [andb]; lra.
  - intros N E. assert (X : ((k =? 0) || (S k =? n))%bool = true) by (apply orb_true_iff; destruct E as [E|E]; [left|right]; now apply Nat.eqb_eq).
    rewrite X. apply Nat.ltb_lt in N. rewrite N. reflexivity.
Qed.
Lemma fx_cosine : cosine_like (fo_cos fx).
Proof.
  cbn. split; [|split].
  - intros x y X Y Z. assert (A : (0 <= (2 / np_pi) * x)%Q) by (apply Qmult_le_0_compat; [vm_compute; discriminate|exact X]).
    assert (B : ((2 / np_pi) * x <= (2 / np_pi) * y)%Q). { rewrite !(Qmult_comm (2 / np_pi)). apply Qmult_le_compat_r; [exact Y|vm_compute; discriminate]. }
    assert (D : ((2 / np_pi) * y <= 2)%Q). { apply Qle_trans with ((2 / np_pi) * np_pi)%Q; [|apply Qle_lteq; right; vm_compute; reflexivity].
      rewrite !(Qmult_comm (2 / np_pi)). apply Qmult_le_compat_r; [exact Z|vm_compute; discriminate]. }
    split; [lra|split; lra].
  - intros x E. rewrite E. ring.
  - intros x E. rewrite E. vm_compute. reflexivity.
Qed.
Definition fx_obj : filter_obj := {| ob_amp := true; ob_t := fx_t; ob_data := flip 3 1; ob_t_merger := 100; ob_required := true; ob_delta_T := fun _ => 4%Q |}.
Definition fx_opt (alpha size pad taper : Q) : filter_options :=
  {| k_threshold := 2 # 10; k_alpha := alpha; k_size := size; k_check := LNone; k_fspin := LNone; k_level := 0; k_skip := false; k_pad := Qfloor pad;
     k_taper := taper; k_s_lo := 75 # 100; k_s_hi := 125 # 100; k_e_lo := 25 # 100; k_e_hi := 5 # 10 |}.
Lemma check_increasing t : (forall i a b, nth_error t i = Some a -> nth_error t (S i) = Some b -> (a < b)%Q) -> increasing t.
Proof.
  intros H. unfold increasing. assert (G : forall n i a b, nth_error t i = Some a -> nth_error t (i + S n) = Some b -> (a < b)%Q).
  { induction n as [|n IH]; intros i a b A B; [rewrite Nat.add_1_r in B; eauto|].
    destruct (nth_error t (i + S n)) as [c|] eqn:E.
    - apply Qlt_trans with c; [eauto|]. replace (i + S (S n)) with (S (i + S n)) in B by lia. eauto.
    - apply nth_error_None in E. assert (nth_error t (i + S (S n)) = None) by (apply nth_error_None; lia). congruence. }
  intros i j a b L A B. apply (G (j - i - 1) i); [exact A|]. now replace (i + S (j - i - 1)) with j by lia.
Qed.
Lemma fx_increasing : increasing fx_t.
Proof.
  apply check_increasing. intros i a b A B. unfold fx_t, ex_n in A, B. rewrite nth_error_map in A, B.
  assert (K : forall k n c, nth_error (seq 0 n) k = Some c -> c = k).
  { intros k n c X. assert (k < n). { rewrite <- (seq_length n 0). apply nth_error_Some. congruence. } rewrite (nth_error_nth' _ 0) in X by (rewrite seq_length; lia).
    apply Some_inj in X. rewrite seq_nth in X by lia. lia. }
  destruct (nth_error _ i) as [u|] eqn:U in A; [|discriminate]. destruct (nth_error _ (S i)) as [v|] eqn:V in B; [|discriminate]. cbn in A, B. apply Some_inj in A, B.
  apply K in U, V. subst. rewrite <- Zlt_Qlt. lia.
Qed.

Section Same.
  Variable F : fourier.
  Lemma find_index_agree {A} (p q : A -> bool) l : (forall x, p x = q x) -> find_index p l = find_index q l.
  Proof. intros E. unfold find_index. generalize 0. induction l as [|a l IH]; intros n; cbn; [reflexivity|]. now rewrite E, IH. Qed.
  Lemma segment_same b o c c' : (c == c')%Q -> ob_delta_T b c = ob_delta_T b c' -> filter_segment F b o c = filter_segment F b o c'.
  Proof.
    intros E D. assert (M : make_segment b (k_size o) c = make_segment b (k_size o) c').
    { unfold make_segment. rewrite D. destruct (get (ob_t b) 0) as [t0|]; [|reflexivity]. destruct (last_of (ob_t b)) as [tn|]; [|reflexivity]. cbn [bind].
      set (half := ((1 # 2) * k_size o * ob_delta_T b c')%Q).
      assert (X : (Qmaxb t0 (c - half) == Qmaxb t0 (c' - half))%Q). { unfold Qmaxb. rewrite E. destruct (Qle_bool t0 (c' - half)); [now rewrite E|reflexivity]. }
      assert (Y : (Qminb tn (c + half) == Qminb tn (c' + half))%Q). { unfold Qminb. rewrite E. destruct (Qle_bool tn (c' + half)); [reflexivity|now rewrite E]. }
      assert (S1 : searchsorted (ob_t b) (Qmaxb t0 (c - half)) = searchsorted (ob_t b) (Qmaxb t0 (c' - half))).
      { unfold searchsorted. rewrite (find_index_agree _ (fun x => Qle_bool (Qmaxb t0 (c' - half)) x)); [reflexivity|]. intros x. now rewrite X. }
      assert (S2 : searchsorted_right (ob_t b) (Qminb tn (c + half)) = searchsorted_right (ob_t b) (Qminb tn (c' + half))).
      { unfold searchsorted_right. rewrite (find_index_agree _ (fun x => Qlt_bool (Qminb tn (c' + half)) x)); [reflexivity|]. intros x. unfold Qlt_bool. now rewrite Y. }
      now rewrite S1, S2. }
    unfold filter_segment. now rewrite M, D.
  Qed.
  Lemma stuck b o t0 tn s : increasing (ob_t b) -> length (ob_data b) = length (ob_t b) -> (k_alpha o == 0)%Q -> nth_error (ob_t b) 0 = Some t0 -> nth_error (ob_t b) (length (ob_t b) - 1) = Some tn ->
    1 < length (ob_t b) -> (forall c, (c == t0)%Q -> ob_delta_T b c = ob_delta_T b t0) -> filter_segment F b o t0 = Ok s ->
    forall fuel, apply_filter F fuel b o = Err OutOfFuel.
  Proof.
    intros I L A T0 Tn N D S. apply (apply_stuck F b o I L t0 tn A T0 Tn N). intros c E. exists s. rewrite (segment_same b o c t0 E (D c E)). exact S.
  Qed.
  Lemma ends b o : increasing (ob_t b) -> length (ob_data b) = length (ob_t b) -> (forall a m t x, fo_trend F a m t x <> Err OutOfFuel) ->
    (0 < k_alpha o)%Q -> (0 < k_size o)%Q -> exists n, forall fuel, n <= fuel -> apply_filter F fuel b o <> Err OutOfFuel /\ apply_filter F fuel b o = apply_filter F n b o.
  Proof. intros. now apply apply_ends. Qed.
  Lemma everywhere fuel b o y l dt t0 tn : increasing (ob_t b) -> length (ob_data b) = length (ob_t b) -> window (fo_hanning F) -> hann_like (fo_hanning F) ->
    apply_filter F fuel b o = Ok (y, l) -> gaps_at_most (ob_t b) dt -> 3 <= length (ob_t b) ->
    nth_error (ob_t b) 0 = Some t0 -> nth_error (ob_t b) (length (ob_t b) - 1) = Some tn -> (0 < k_alpha o)%Q -> (0 < k_size o)%Q ->
    (forall c, (t0 <= c)%Q -> (c < tn)%Q -> (k_alpha o * ob_delta_T b c + dt <= (1 # 2) * k_size o * ob_delta_T b c)%Q) ->
    length y = length (ob_t b) /\
    exists js, Forall (fun p => placed (ob_t b) (fst p) (snd p)) (combine l js) /\ map fst (combine l js) = l /\
      (forall i v, 0 < i -> S i < length (ob_t b) -> nth_error y i = Some v -> averaged (fo_hanning F) (combine l js) i v) /\
      nth_error y 0 = nth_error y 1 /\ nth_error y (length (ob_t b) - 1) = nth_error y (length (ob_t b) - 2).
  Proof.
    intros I L W HH H G N3 T0 Tn Pa Ps HC. split; [eapply filtered_length; eauto|].
    destruct (filtered_values F b o I L W fuel y l dt t0 tn HH H G N3 T0 Tn Pa Ps HC) as (js & P & M & A & B). exists js. auto.
  Qed.
  Lemma averaged_between l i v lo hi : window (fo_hanning F) -> averaged (fo_hanning F) l i v ->
    (forall w y, In (w, y) (shares (fo_hanning F) i l) -> (0 < w)%Q -> (lo <= y <= hi)%Q) -> (lo <= v <= hi)%Q.
  Proof.
    intros W [A B] H. apply (average_bounds (shares (fo_hanning F) i l) lo hi v); [|exact H|exact A|exact B]. intros w y Hy. eapply share_weight; eauto.
  Qed.
End Same.
Lemma piece_placed lo n v : 0 < n -> lo + n <= length fx_t -> placed fx_t (fst (piece lo n v)) (snd (piece lo n v)).
Proof.
  intros N B. unfold placed. cbn [piece fst snd sg_t sg_filtered]. rewrite repeat_length, firstn_length, skipn_length.
  replace (Nat.min n (length fx_t - lo)) with n by lia. split; [reflexivity|]. split; [exact N|]. intros k K.
  rewrite nth_error_firstn. destruct (Nat.ltb_spec k n); [|lia]. rewrite nth_error_skipn. split; [reflexivity|]. apply nth_error_Some. lia.
Qed.
Lemma fx_placed : Forall (fun p => placed fx_t (fst p) (snd p)) fx_pieces.
Proof. unfold fx_pieces. apply Forall_cons; [|apply Forall_cons; [|apply Forall_cons; [|apply Forall_nil]]]; apply piece_placed; cbn; lia. Qed.
Lemma fx_differ : exists F d kw r, slookup kw "data_type_for_filter_requirement_check" = Some LNone /\
  check_and_filter (C := ex_c) F 30 d "" (Some 100%Q) kw = ([], Ok r) /\
  (exists y, slookup r "amp_gw_filtered" = Some (FArr y)) /\ slookup r "omega_gw_filtered" = Some FNone /\ slookup r "phase_gw_filtered" = Some FNone.
Proof.
  exists fx, fx_mild, (fx_with []). assert (X : exists r, check_and_filter (C := ex_c) fx 30 fx_mild "" (Some 100%Q) (fx_with []) = ([], Ok r) /\
    match slookup r "amp_gw_filtered" with Some (FArr _) => True | _ => False end /\ slookup r "omega_gw_filtered" = Some FNone /\ slookup r "phase_gw_filtered" = Some FNone).
  { destruct (check_and_filter (C := ex_c) fx 30 fx_mild "" (Some 100%Q) (fx_with [])) as [w [r|e]] eqn:E; [|vm_compute in E; discriminate].
    exists r. revert E. vm_compute. intros E. inversion E. subst. repeat split. }
  destruct X as (r & E & A & B). exists r. split; [reflexivity|]. split; [exact E|]. split; [|exact B]. destruct (slookup r "amp_gw_filtered") as [[]|]; eauto; contradiction.
Qed.
Lemma fx_mirrored : reflection_symmetric [] fx_mirror.
Proof.
  exists (flip 3 1), (flip 3 1), fx_t, (map Qopp fx_t), (flip 3 1), (flip (-3) (-1)).
  repeat split; try (eexists; split; [reflexivity|]; left; eexists; split; reflexivity); cbn; repeat constructor.
Qed.
Lemma fx_gaps : gaps_at_most (ob_t fx_obj) 1.
Proof.
  intros i a b A B. cbn [ob_t fx_obj] in A, B. unfold fx_t, ex_n in A, B.
  do 24 (destruct i as [|i]; [vm_compute in A, B; try discriminate; apply Some_inj in A, B; subst; vm_compute; discriminate|]).
  exfalso. rewrite nth_error_map in A. rewrite (proj2 (nth_error_None (seq 0 24) _)) in A; [discriminate|rewrite seq_length; lia].
Qed.
Lemma fx_swept : increasing (ob_t fx_obj) /\ length (ob_data fx_obj) = length (ob_t fx_obj) /\ hann_like (fo_hanning fx) /\ gaps_at_most (ob_t fx_obj) 1 /\
  (exists y l, apply_filter fx 30 fx_obj (fx_opt 1 7 2 (1 # 5)) = Ok (y, l) /\ map (fun s => length (sg_t s)) l = [15; 19; 23; 24; 22; 18]) /\
  (exists s, filter_segment fx fx_obj (fx_opt 0 7 2 (1 # 5)) 0 = Ok s) /\
  (1 * 4 + 1 <= (1 # 2) * 7 * 4)%Q.
Proof.
  split; [exact fx_increasing|]. split; [reflexivity|]. split; [exact fx_hann|]. split; [exact fx_gaps|]. split; [|split; [|vm_compute; discriminate]].
  - destruct (apply_filter fx 30 fx_obj (fx_opt 1 7 2 (1 # 5))) as [[y l]|e] eqn:E; [|vm_compute in E; discriminate].
    exists y, l. split; [reflexivity|]. revert E. vm_compute. intros E. inversion E. reflexivity.
  - destruct (filter_segment fx fx_obj (fx_opt 0 7 2 (1 # 5)) 0) as [s|e] eqn:E; [eauto|vm_compute in E; discriminate].
Qed.
