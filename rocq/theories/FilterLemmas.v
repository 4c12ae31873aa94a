(** Proofs about crossings, frequencies and the mask of the spin filter. *)
From Coq Require Import Lia Lqa.
From Verif Require Import Base BaseLemmas UtilsModel UtilsSpec MeasureModel SegmentModel DataModel DataLemmas DataLemmas2 InitModel FilterModel FilterSpec.
Open Scope nat_scope.

(** ** crossings *)
Lemma sign_cases a : (sign a = (-1)%Z /\ (a < 0)%Q) \/ (sign a = 0%Z /\ (a == 0)%Q) \/ (sign a = 1%Z /\ (0 < a)%Q).
Proof.
  unfold sign, Qlt, Qeq. destruct a as [n d]. cbn. destruct n; cbn; [right; left|right; right|left]; lia.
Qed.
Lemma sign_same a b : sign a = sign b <-> same_sign a b.
Proof.
  unfold same_sign. destruct (sign_cases a) as [[-> A]|[[-> A]|[-> A]]], (sign_cases b) as [[-> B]|[[-> B]|[-> B]]];
    split; intros H; try discriminate; try reflexivity; auto; exfalso; lra.
Qed.
Lemma zdiff_nth l : forall i d, nth_error (zdiff l) i = Some d <->
  exists a b, nth_error l i = Some a /\ nth_error l (S i) = Some b /\ d = (b - a)%Z.
Proof.
  induction l as [|a l IH]; intros i d; [cbn; split; [destruct i; discriminate|intros (a & b & H & _); destruct i; discriminate]|].
  destruct l as [|b l].
  - cbn. split; [destruct i; discriminate|]. intros (x & y & _ & H & _). destruct i; discriminate.
  - change (zdiff (a :: b :: l)) with ((b - a)%Z :: zdiff (b :: l)). destruct i as [|i].
    + cbn [nth_error]. split; [intros H; apply Some_inj in H; subst; eauto|]. intros (x & y & H1 & H2 & ->). congruence.
    + cbn [nth_error]. apply IH.
Qed.
Lemma crossing_idx x y i : length x = length y ->
  In i (where_idx (fun d => negb (Z.eqb d 0)) (zdiff (map sign (map2 Qminus x y)))) <-> crosses x y i.
Proof.
  intros L. rewrite where_idx_in. unfold crosses. split.
  - intros (d & H & N). apply zdiff_nth in H. destruct H as (u & v & U & V & ->).
    rewrite nth_error_map, nth_error_map2 in U, V.
    destruct (nth_error x i) as [a|] eqn:A; [|discriminate]. destruct (nth_error y i) as [c|] eqn:C; [|discriminate].
    destruct (nth_error x (S i)) as [b|] eqn:B; [|discriminate]. destruct (nth_error y (S i)) as [e|] eqn:D; [|discriminate].
    cbn in U, V. apply Some_inj in U, V. subst u v. exists a, b, c, e. repeat (split; [assumption || reflexivity|]).
    rewrite <- sign_same. intros E. rewrite E in N. rewrite Z.sub_diag in N. discriminate.
  - intros (a & b & c & d & A & B & C & D & N). exists (sign (b - d) - sign (a - c))%Z. split.
    + apply zdiff_nth. exists (sign (a - c)), (sign (b - d)). rewrite !nth_error_map, !nth_error_map2, A, B, C, D. auto.
    + rewrite <- sign_same in N. destruct (Z.eqb_spec (sign (b - d) - sign (a - c)) 0); [exfalso; apply N; lia|reflexivity].
Qed.
Lemma midpoints_nth l : pairwise (fun a b => (a + b) / 2)%Q l (midpoints_of l).
Proof.
  induction l as [|a [|b l] [IL IH]]; [split; [reflexivity|intros [|k]; discriminate]|split; [reflexivity|intros [|[|k]]; discriminate]|].
  change (midpoints_of (a :: b :: l)) with (((1 # 2) * (a + b))%Q :: midpoints_of (b :: l)). split; [cbn [length] in *; lia|].
  intros [|k] u v U V; cbn [nth_error] in *; [|now apply IH].
  apply Some_inj in U, V. subst. eexists. split; [reflexivity|]. field.
Qed.
Lemma differences_nth l : pairwise (fun a b => b - a)%Q l (qdiff l).
Proof.
  split; [apply qdiff_length|]. intros k a b A B. exists (b - a)%Q. split; [|reflexivity]. apply qdiff_nth. eauto.
Qed.
Lemma crossings_found t x y tc tm dt : find_intersection_points t x y = Ok (tc, tm, dt) ->
  exists idx, crossing_times t x y idx tc /\ 2 <= length idx /\ pairwise (fun a b => (a + b) / 2)%Q tc tm /\ pairwise (fun a b => b - a)%Q tc dt.
Proof.
  unfold find_intersection_points. intros H. apply bind_ok in H. destruct H as (df & Z & H). apply zip_ok in Z. destruct Z as [L ->].
  cbv zeta in H. set (idx := where_idx _ _) in H. destruct (Nat.ltb_spec (length idx) 2) as [|G]; [discriminate|].
  apply bind_ok in H. destruct H as (tc' & Eg & H). apply Ok_inj in H. inversion H; subst tc' tm dt; clear H.
  exists idx. split; [|split; [exact G|split; [apply midpoints_nth|apply differences_nth]]].
  split; [apply where_idx_sorted|]. split; [intros i; now apply crossing_idx|]. assert (GL := gather_length _ _ _ Eg). split; [exact GL|].
  intros k i Hk. assert (k < length tc). { rewrite GL. apply nth_error_Some. congruence. }
  destruct (nth_error tc k) as [s|] eqn:E; [|apply nth_error_None in E; lia]. split; [|discriminate].
  apply (gather_nth _ _ _ Eg) in E. destruct E as (i' & E1 & E2). congruence.
Qed.
Lemma crossings_few t x y : length x = length y -> (forall i j, crosses x y i -> crosses x y j -> i = j) ->
  find_intersection_points t x y = Err ValueError.
Proof.
  intros L U. unfold find_intersection_points, zip_with. rewrite L, Nat.eqb_refl. cbn [bind]. set (idx := where_idx _ _).
  destruct (Nat.ltb_spec (length idx) 2) as [|G]; [reflexivity|]. exfalso.
  assert (S := where_idx_sorted (fun d => negb (Z.eqb d 0)) (zdiff (map sign (map2 Qminus x y)))). fold idx in S.
  assert (X : forall i, In i idx -> crosses x y i) by (intros i; apply crossing_idx; exact L).
  destruct idx as [|i [|j r]]; cbn in G; try lia. assert (i = j) by (apply U; apply X; cbn; auto). subst.
  assert (j < j); [|lia]. apply (SSorted_nth _ S 0 1); auto.
Qed.
Lemma crossings_enough t x y i j : length x = length y -> length t = length x -> i <> j -> crosses x y i -> crosses x y j ->
  exists r, find_intersection_points t x y = Ok r.
Proof.
  intros L T N I J. unfold find_intersection_points, zip_with. rewrite L, Nat.eqb_refl. cbn [bind]. set (idx := where_idx _ _).
  assert (X : forall i, In i idx <-> crosses x y i) by (intros k; apply crossing_idx; exact L).
  apply X in I, J. destruct (Nat.ltb_spec (length idx) 2) as [G|G].
  { exfalso. destruct idx as [|a [|b r]]; cbn in *; try lia; intuition congruence. }
  destruct (gather_total t idx) as (tc & E); [|rewrite E; cbn [bind]; eauto].
  apply Forall_forall. intros k K. apply X in K. destruct K as (a & _ & _ & _ & K & _). rewrite T. apply nth_error_Some. congruence.
Qed.

(** ** frequencies *)
Lemma window_in lo hi freqs i : In i (where_idx (fun f => Qle_bool lo f && Qle_bool f hi) freqs) <->
  exists f, nth_error freqs i = Some f /\ (lo <= f <= hi)%Q.
Proof.
  rewrite where_idx_in. split; intros (f & E & H); exists f; (split; [exact E|]).
  - apply andb_prop in H. destruct H as [A B]. apply Qle_bool_iff in A, B. auto.
  - destruct H as [A B]. apply Qle_bool_iff in A, B. now rewrite A, B.
Qed.
Lemma pick_none choose freqs spectrum lo hi : pick choose freqs spectrum lo hi = Ok None -> none_within freqs lo hi.
Proof.
  unfold pick. destruct (where_idx _ freqs) as [|i0 r] eqn:E.
  - intros _ f Hf Hw. apply In_nth_error in Hf. destruct Hf as (i & Hi). assert (In i []) as []. { rewrite <- E. apply window_in. eauto. }
  - intros H. apply bind_ok in H; destruct H as (fs & _ & H). apply bind_ok in H; destruct H as (ss & _ & H).
    apply bind_ok in H; destruct H as (i & _ & H). apply bind_ok in H; destruct H as (f & _ & H). discriminate.
Qed.
Lemma pick_some choose freqs spectrum lo hi f : pick choose freqs spectrum lo hi = Ok (Some f) ->
  exists idx ss k i a, (forall j, In j idx <-> exists g, nth_error freqs j = Some g /\ (lo <= g <= hi)%Q) /\ gather spectrum idx = Ok ss /\
    choose ss = Ok k /\ nth_error idx k = Some i /\ nth_error freqs i = Some f /\ nth_error spectrum i = Some a /\ nth_error ss k = Some a.
Proof.
  unfold pick. destruct (where_idx _ freqs) as [|i0 r] eqn:E; [discriminate|]. rewrite <- E. set (idx := where_idx _ freqs) in *. intros H.
  apply bind_ok in H; destruct H as (fs & Ef & H). apply bind_ok in H; destruct H as (ss & Es & H).
  apply bind_ok in H; destruct H as (k & Ek & H). apply bind_ok in H; destruct H as (f' & Eg & H). apply Ok_inj, Some_inj in H. subst f'.
  apply get_ok in Eg. apply (gather_nth _ _ _ Ef) in Eg. destruct Eg as (i & K & Fi).
  assert (k < length ss). { rewrite (gather_length _ _ _ Es). apply nth_error_Some. congruence. }
  destruct (nth_error ss k) as [a|] eqn:Ea; [|apply nth_error_None in Ea; lia].
  assert (Ea' := Ea). apply (gather_nth _ _ _ Es) in Ea'. destruct Ea' as (i' & K' & Si). assert (i' = i) by congruence. subst i'.
  exists idx, ss, k, i, a. repeat (split; [assumption|]). split; [|auto 10]. intros j. apply window_in.
Qed.
Lemma pick_max freqs spectrum lo hi f : pick argmax freqs spectrum lo hi = Ok (Some f) -> strongest freqs spectrum lo hi f.
Proof.
  intros H. apply pick_some in H. destruct H as (idx & ss & k & i & a & I & Es & Ek & Ki & Fi & Si & Sk).
  exists i, a. repeat (split; [assumption|]). split.
  { apply nth_error_In in Ki. apply I in Ki. destruct Ki as (g & G & W). congruence. }
  intros j g b Gj Bj W. assert (In j idx) as J by (apply I; eauto). apply In_nth_error in J. destruct J as (m & M).
  apply argmax_ok in Ek. destruct Ek as (mx & M1 & M2 & _). assert (mx = a) by congruence. subst mx.
  apply (M2 m). apply (gather_nth _ _ _ Es). eauto.
Qed.
Lemma pick_min freqs spectrum lo hi f : pick argmin freqs spectrum lo hi = Ok (Some f) -> weakest freqs spectrum lo hi f.
Proof.
  intros H. apply pick_some in H. destruct H as (idx & ss & k & i & a & I & Es & Ek & Ki & Fi & Si & Sk).
  exists i, a. repeat (split; [assumption|]). split.
  { apply nth_error_In in Ki. apply I in Ki. destruct Ki as (g & G & W). congruence. }
  intros j g b Gj Bj W. assert (In j idx) as J by (apply I; eauto). apply In_nth_error in J. destruct J as (m & M).
  unfold argmin in Ek. apply argmax_ok in Ek. destruct Ek as (mx & M1 & M2 & _). rewrite nth_error_map, Sk in M1. cbn in M1. apply Some_inj in M1. subst mx.
  assert (- b <= - a)%Q; [|lra]. apply (M2 m). rewrite nth_error_map. 
  replace (nth_error ss m) with (Some b); [reflexivity|]. symmetry. apply (gather_nth _ _ _ Es). eauto.
Qed.
Lemma fcut_ok freqs spectrum g sl sh el eh fc fe fs : get_fcut freqs spectrum g sl sh el eh = Ok (fc, fe, fs) ->
  (strongest freqs spectrum (sl * g) (sh * g) fs \/ (fs = g /\ none_within freqs (sl * g) (sh * g))) /\
  (strongest freqs spectrum (el * fs) (eh * fs) fe \/ (fe = (fs / (5 # 2))%Q /\ none_within freqs (el * fs) (eh * fs))) /\
  (weakest freqs spectrum fe fs fc \/ (fc = ((1 # 2) * (fs + fe))%Q /\ none_within freqs fe fs)).
Proof.
  unfold get_fcut. intros H. apply bind_ok in H; destruct H as (s & Es & H). cbv zeta in H.
  apply bind_ok in H; destruct H as (e & Ee & H). apply bind_ok in H; destruct H as (c & Ec & H). apply Ok_inj in H. inversion H; subst fc fe fs; clear H.
  split; [destruct s; [left; now apply pick_max|right; split; [reflexivity|now apply pick_none in Es]]|].
  split; [destruct e; [left; now apply pick_max|right; split; [reflexivity|now apply pick_none in Ee]]|].
  destruct c; [left; now apply pick_min|right; split; [reflexivity|now apply pick_none in Ec]].
Qed.
(** the cutoff lies between the two frequencies *)
Lemma fcut_between freqs spectrum g sl sh el eh fc fe fs : get_fcut freqs spectrum g sl sh el eh = Ok (fc, fe, fs) ->
  (0 < g)%Q -> (0 < sl)%Q -> (0 < el)%Q -> (eh <= 1)%Q -> (0 < fe /\ fe <= fc /\ fc <= fs)%Q.
Proof.
  intros H Hg Hl He Hh. apply fcut_ok in H. destruct H as (S & E & C).
  assert (PS : (0 < fs)%Q). { destruct S as [(i & a & _ & _ & W & _)|(-> & _)]; [|exact Hg]. assert (0 < sl * g)%Q by now apply Qmult_lt_0_compat. lra. }
  assert (PE : (0 < fe /\ fe <= fs)%Q).
  { destruct E as [(i & a & _ & _ & W & _)|(-> & _)].
    - assert (0 < el * fs)%Q by now apply Qmult_lt_0_compat. assert (eh * fs <= 1 * fs)%Q by (apply Qmult_le_compat_r; lra). lra.
    - assert (E : (fs / (5 # 2) == (2 # 5) * fs)%Q) by field. rewrite E. lra. }
  destruct C as [(i & a & _ & _ & W & _)|(-> & _)]; lra.
Qed.

(** ** mask *)
Section Mask.
  Variable F : fourier.
  Hypothesis K : cosine_like (fo_cos F).
  Lemma mask_q freqs fc w m : make_lowpass_mask F freqs fc w = Ok m -> (0 < fc)%Q -> (0 < w)%Q ->
    length m = length freqs /\
    (forall i f, nth_error freqs i = Some f -> exists v, nth_error m i = Some v /\ (0 <= v <= 1)%Q /\
       (f <= fc * (1 - w) -> v == 1)%Q /\ (fc * (1 + w) <= f -> v == 0)%Q) /\
    (forall i j f g u v, nth_error freqs i = Some f -> nth_error freqs j = Some g -> nth_error m i = Some u -> nth_error m j = Some v ->
       (f <= g)%Q -> (v <= u)%Q).
  Proof.
    unfold make_lowpass_mask. cbv zeta. intros H Hf Hw. destruct (_ && _)%bool; [discriminate|]. apply Ok_inj in H. subst m.
    set (lo := (fc * (1 - w))%Q). set (hi := (fc * (1 + w))%Q). set (gf := fun f => if Qlt_bool hi f then _ else _).
    assert (P : (0 < fc * w)%Q) by now apply Qmult_lt_0_compat.
    assert (D : (hi - lo == 2 * (fc * w))%Q) by (unfold hi, lo; ring).
    assert (Pi : (0 < np_pi)%Q) by reflexivity.
    destruct K as (K1 & K2 & K3).
    assert (A : forall f, (lo <= f <= hi)%Q -> (0 <= np_pi * (f - lo) / (hi - lo) /\ np_pi * (f - lo) / (hi - lo) <= np_pi)%Q).
    { intros f [F1 F2]. split.
      - apply Qle_shift_div_l; [lra|]. rewrite Qmult_0_l. apply Qmult_le_0_compat; lra.
      - apply Qle_shift_div_r; [lra|]. apply (Qmult_le_l (f - lo) (hi - lo) np_pi); lra. }
    assert (M : forall f g, (lo <= f)%Q -> (f <= g)%Q -> (g <= hi)%Q -> (np_pi * (f - lo) / (hi - lo) <= np_pi * (g - lo) / (hi - lo))%Q).
    { intros f g F1 F2 F3. apply Qmult_le_compat_r; [apply (Qmult_le_l (f - lo) (g - lo) np_pi); lra|]. apply Qlt_le_weak, Qinv_lt_0_compat. lra. }
    assert (G : forall f, ((hi < f)%Q /\ gf f = 0%Q) \/ ((lo <= f <= hi)%Q /\ gf f = ((1 # 2) * (1 + fo_cos F (np_pi * (f - lo) / (hi - lo))))%Q) \/
                          ((f < lo)%Q /\ gf f = 1%Q)).
    { intros f. unfold gf. destruct (Qlt_bool hi f) eqn:B1; [left; apply Qlt_bool_iff in B1; auto|]. apply Qlt_bool_false in B1. right.
      destruct (Qle_bool lo f) eqn:B2; cbn [andb].
      - apply Qle_bool_iff in B2. assert (B3 : Qle_bool f hi = true) by now apply Qle_bool_iff. rewrite B3. left. auto.
      - apply Qle_bool_false in B2. auto. }
    split; [apply map_length|]. split.
    - intros i f E. exists (gf f). rewrite nth_error_map, E. split; [reflexivity|].
      destruct (G f) as [[B ->]|[[B ->]|[B ->]]].
      + split; [lra|]. split; intros; lra.
      + destruct (A f B) as [A1 A2]. assert (K4 := K1 _ _ A1 (Qle_refl _) A2).
        split; [lra|]. split; intros X.
        * rewrite K2; [ring|]. assert (Z : (f - lo == 0)%Q) by lra. unfold Qdiv. rewrite Z. ring.
        * rewrite K3; [ring|]. assert (Z : (f - lo == hi - lo)%Q) by lra. rewrite Z. field. lra.
      + split; [lra|]. split; intros; lra.
    - intros i j f g u v E1 E2 M1 M2 L. rewrite nth_error_map, E1 in M1. rewrite nth_error_map, E2 in M2. apply Some_inj in M1, M2. subst u v.
      assert (R : forall f, (0 <= gf f <= 1)%Q).
      { intros x. destruct (G x) as [[B ->]|[[B ->]|[B ->]]]; try lra. destruct (A x B) as [A1 A2]. assert (K4 := K1 _ _ A1 (Qle_refl _) A2). lra. }
      assert (Rf := R f). assert (Rg := R g).
      destruct (G f) as [[B E]|[[B E]|[B E]]]; destruct (G g) as [[B' E']|[[B' E']|[B' E']]]; rewrite E, E' in *; try lra.
      destruct (A f B) as [A1 A2], (A g B') as [A3 A4]. assert (K4 := K1 _ _ A1 (M f g (proj1 B) L (proj2 B')) A4). lra.
  Qed.
End Mask.
Lemma zip_pointwise f a b r : zip_with f a b = Ok r -> pointwise f a b r.
Proof.
  intros H. apply zip_ok in H. destruct H as [L ->]. split; [exact L|]. split; [rewrite map2_length; lia|].
  intros k x y X Y. now rewrite nth_error_map2, X, Y.
Qed.
