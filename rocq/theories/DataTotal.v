(** The total amplitude of all modes, and concrete waveform dictionaries used in the examples. *)
From Coq Require Import Reals Qreals Permutation Lra.
From Verif Require Import Base BaseLemmas UtilsModel DataModel DataSpec DataLemmas DataLemmas2 DataUnits.
Open Scope string_scope.
Open Scope nat_scope.

Section Total.
  Variable C : Type.
  Variable cabs : C -> list Q.
  Variable qsqrt : Q -> Q.
  Notation total := (amplitude_using_all_modes C cabs qsqrt).
  Lemma square_ok dt x q : mode_square C cabs dt x = Ok q -> q = map (fun y => y * y)%Q (amps cabs dt x) /\ (dt = "hlm" \/ dt = "amplm").
  Proof.
    unfold mode_square, amps. destruct (String.eqb dt "hlm") eqn:E1.
    - intros H. apply Ok_inj in H. subst q. apply String.eqb_eq in E1. split; [destruct x; reflexivity|auto].
    - destruct (String.eqb dt "amplm") eqn:E2; [|discriminate]. apply String.eqb_eq in E2. destruct x; [discriminate|]. intros H. apply Ok_inj in H. auto.
  Qed.
  Lemma sum_ok dt : forall d acc s, sum_squares C cabs dt acc d = Ok s ->
    length s = length acc /\ (forall kx, In kx d -> length (amps cabs dt (snd kx)) = length acc) /\
    forall k u, nth_error acc k = Some u -> exists v, nth_error s k = Some v /\ (v == u + sum_sq (map (fun kx => amps cabs dt (snd kx)) d) k)%Q.
  Proof.
    induction d as [|[m x] d IH]; cbn [sum_squares]; intros acc s H.
    - apply Ok_inj in H. subst s. split; [reflexivity|]. split; [intros ? []|]. intros k u E. exists u. split; [exact E|]. unfold sum_sq. cbn. ring.
    - inv_bind H. inv_bind H. apply IH in H. destruct H as (L & A & K). apply square_ok in E. destruct E as [-> _]. apply zip_ok in E0. destruct E0 as [L0 ->].
      rewrite map_length in L0. rewrite map2_length, map_length, L0, Nat.min_id in L.
      assert (L' : length (map2 Qplus acc (map (fun y => y * y)%Q (amps cabs dt x))) = length acc) by (rewrite map2_length, map_length; lia).
      rewrite L' in A. split; [lia|]. split.
      { intros kx [<-|I]; [now symmetry|auto]. }
      intros k u E. assert (I : k < length (amps cabs dt x)) by (rewrite <- L0; apply nth_error_Some; congruence).
      destruct (nth_error (amps cabs dt x) k) as [y|] eqn:Ey; [|apply nth_error_None in Ey; lia].
      destruct (K k (u + y * y)%Q) as (v & Ev & Hv). { rewrite nth_error_map2, E, nth_error_map, Ey. reflexivity. }
      exists v. split; [exact Ev|]. rewrite Hv. unfold sum_sq. cbn [map fold_right]. cbn [snd]. rewrite (nth_error_nth _ _ 0%Q Ey). ring.
  Qed.
  Lemma total_ok dt d r : total dt d = Ok r ->
    exists s, r = map qsqrt s /\ d <> [] /\ (forall kx, In kx d -> length (amps cabs dt (snd kx)) = length s) /\
      forall k v, nth_error s k = Some v -> (v == sum_sq (map (fun kx => amps cabs dt (snd kx)) d) k)%Q.
  Proof.
    destruct d as [|[m x] d]; [discriminate|]. cbn. intros H. inv_bind H. inv_bind H. apply Ok_inj in H. subst r. exists v0. split; [reflexivity|]. split; [discriminate|].
    apply square_ok in E. destruct E as [-> _]. apply sum_ok in E0. rewrite map_length in E0. destruct E0 as (L & A & K). split.
    { intros kx [<-|I]; [now symmetry|]. rewrite L. auto. }
    intros k v Hv. assert (I : k < length (amps cabs dt x)) by (rewrite <- L; apply nth_error_Some; congruence).
    destruct (nth_error (amps cabs dt x) k) as [y|] eqn:Ey; [|apply nth_error_None in Ey; lia].
    destruct (K k (y * y)%Q) as (v' & Ev & Hv'). { rewrite nth_error_map, Ey. reflexivity. }
    assert (v' = v) by congruence. subst v'. rewrite Hv'. unfold sum_sq. cbn [map fold_right snd]. rewrite (nth_error_nth _ _ 0%Q Ey). reflexivity.
  Qed.
  Lemma total_bad dt d : dt <> "hlm" -> dt <> "amplm" -> d <> [] -> total dt d = Err KeyError.
  Proof.
    intros H1 H2 Hd. destruct d as [|[m x] d]; [congruence|]. apply String.eqb_neq in H1, H2. cbn. unfold mode_square. now rewrite H1, H2.
  Qed.
  Lemma total_exists dt d n : d <> [] -> dt = "hlm" \/ dt = "amplm" -> (forall kx, In kx d -> length (amps cabs dt (snd kx)) = n /\ (dt = "hlm" \/ exists a, snd kx = inr a)) ->
    exists r, total dt d = Ok r.
  Proof.
    intros Hd Hdt Hn.
    assert (Sq : forall kx, In kx d -> mode_square C cabs dt (snd kx) = Ok (map (fun y => y * y)%Q (amps cabs dt (snd kx)))).
    { intros kx I. destruct (Hn kx I) as [_ K]. unfold mode_square, amps. destruct Hdt as [-> | ->]; cbn [String.eqb Ascii.eqb Bool.eqb]; [destruct (snd kx); reflexivity|].
      destruct K as [K|[a ->]]; [discriminate|reflexivity]. }
    assert (Ss : forall e acc, incl e d -> length acc = n -> exists s, sum_squares C cabs dt acc e = Ok s).
    { induction e as [|[m x] e IH]; intros acc I L; cbn [sum_squares]; [eauto|]. assert (I0 : In (m, x) d) by (apply I; now left).
      generalize (Sq _ I0). cbn [snd]. intros ->. cbn [bind]. unfold zip_with. rewrite map_length. destruct (Hn _ I0) as [Ln _]. cbn [snd] in Ln. rewrite Ln, L, Nat.eqb_refl. cbn [bind].
      apply IH; [intros y Hy; apply I; now right|]. rewrite map2_length, map_length. lia. }
    destruct d as [|[m x] d]; [congruence|]. cbn. generalize (Sq _ (or_introl eq_refl)). cbn [snd]. intros ->. cbn [bind].
    destruct (Ss d (map (fun y => y * y)%Q (amps cabs dt x))) as (s & ->); [intros y Hy; now right| |cbn [bind]; eauto].
    rewrite map_length. apply (Hn (m, x)). now left.
  Qed.
  Lemma sum_perm l l' k : Permutation l l' -> (sum_sq l k == sum_sq l' k)%Q.
  Proof.
    intros P. unfold sum_sq. induction P; cbn [fold_right]; [reflexivity|now rewrite IHP|ring|now rewrite IHP1].
  Qed.
  Lemma sum_ge l k a : In a l -> (nth k a 0 * nth k a 0 <= sum_sq l k)%Q.
  Proof.
    assert (N : forall m, (0 <= sum_sq m k)%Q).
    { unfold sum_sq. induction m; cbn [fold_right]; [lra|]. set (z := nth k a0 0%Q) in *. nra. }
    unfold sum_sq in *. induction l as [|b l IH]; [intros []|]. intros [->|I]; cbn [fold_right].
    - generalize (N l). lra.
    - apply IH in I. set (z := nth k b 0%Q). nra.
  Qed.
  Lemma sum_zero l k : (sum_sq l k == 0)%Q <-> forall a, In a l -> (nth k a 0 == 0)%Q.
  Proof.
    split.
    - intros H a I. generalize (sum_ge l k a I). rewrite H. intros. set (z := nth k a 0%Q) in *. nra.
    - unfold sum_sq. induction l as [|b l IH]; intros H; cbn [fold_right]; [reflexivity|]. rewrite IH by (intros; apply H; now right).
      rewrite (H b) by now left. ring.
  Qed.
  Lemma total_real dt d r : total dt d = Ok r ->
    exists s, r = map qsqrt s /\ forall k v, nth_error s k = Some v ->
      (v == sum_sq (map (fun kx => amps cabs dt (snd kx)) d) k)%Q /\
      let A := sqrt (Q2R v) in
      (0 <= A)%R /\ (forall kx y, In kx d -> nth_error (amps cabs dt (snd kx)) k = Some y -> (Rabs (Q2R y) <= A)%R) /\
      (A = 0%R <-> forall kx y, In kx d -> nth_error (amps cabs dt (snd kx)) k = Some y -> (y == 0)%Q).
  Proof.
    intros H. apply total_ok in H. destruct H as (s & -> & _ & L & K). exists s. split; [reflexivity|]. intros k v Hv. pose proof (K k v Hv) as Ev. split; [exact Ev|].
    cbv zeta. set (l := map (fun kx => amps cabs dt (snd kx)) d) in *.
    assert (P : (0 <= Q2R v)%R).
    { rewrite <- RMicromega.Q2R_0. apply Qle_Rle. rewrite Ev. assert (N : forall m, (0 <= sum_sq m k)%Q); [|apply N].
      unfold sum_sq. induction m; cbn [fold_right]; [lra|]. set (z := nth k a 0%Q) in *. nra. }
    split; [apply sqrt_pos|]. split.
    - intros kx y I Ey. rewrite <- sqrt_Rsqr_abs. apply sqrt_le_1_alt. unfold Rsqr. rewrite <- Q2R_mult. apply Qle_Rle.
      rewrite <- (nth_error_nth _ _ 0%Q Ey), Ev. apply sum_ge. unfold l. apply in_map_iff. eauto.
    - split.
      + intros Z kx y I Ey. apply sqrt_eq_0 in Z; [|exact P]. assert (Zv : (v == 0)%Q) by (apply eqR_Qeq; rewrite Z; symmetry; apply RMicromega.Q2R_0).
        rewrite Ev in Zv. rewrite <- (nth_error_nth _ _ 0%Q Ey). apply (proj1 (sum_zero l k) Zv). unfold l. apply in_map_iff. eauto.
      + intros Z. assert (Zv : (v == 0)%Q).
        { rewrite Ev. apply sum_zero. intros a I. unfold l in I. apply in_map_iff in I. destruct I as (kx & <- & I).
          assert (Lk : k < length (amps cabs dt (snd kx))) by (rewrite (L _ I); apply nth_error_Some; congruence).
          destruct (nth_error (amps cabs dt (snd kx)) k) as [y|] eqn:Ey; [|apply nth_error_None in Ey; lia]. rewrite (nth_error_nth _ _ 0%Q Ey). eapply Z; eauto. }
        apply Qeq_eqR in Zv. rewrite Zv, RMicromega.Q2R_0. apply sqrt_0.
  Qed.
  Lemma total_order dt d d' r r' : Permutation d d' -> (forall x y, x == y -> qsqrt x == qsqrt y)%Q ->
    total dt d = Ok r -> total dt d' = Ok r' -> Forall2 Qeq r r'.
  Proof.
    intros P Hq H H'. apply total_ok in H, H'. destruct H as (s & -> & Hd & L & K). destruct H' as (s' & -> & _ & L' & K').
    assert (Ls : length s = length s').
    { destruct d as [|x d]; [congruence|]. rewrite <- (L x) by now left. apply L'. eapply Permutation_in; [exact P|now left]. }
    assert (F : Forall2 Qeq s s').
    { assert (G : forall k u v, nth_error s k = Some u -> nth_error s' k = Some v -> (u == v)%Q).
      { intros k u v E1 E2. rewrite (K _ _ E1), (K' _ _ E2). apply sum_perm. now apply Permutation_map. }
      clear -Ls G. revert s' Ls G. induction s as [|x s IH]; intros [|y s'] Ls G; try discriminate; constructor.
      - apply (G 0); reflexivity.
      - apply IH; [now injection Ls|]. intros k. apply (G (S k)). }
    clear -F Hq. induction F; cbn; constructor; auto.
  Qed.
End Total.

(** ** concrete waveforms for the examples: a complex mode is a pair of amplitude and phase arrays, frames do not differ,
    and the square root is replaced by the identity *)
Definition ex_c := (list Q * list Q)%type.
Definition ex_n (n : nat) : list Q := map (fun i => inject_Z (Z.of_nat i)) (seq 0 n).
Definition ex_t : list Q := ex_n 48.
Definition ex_ph : list Q := ex_t.
Definition ex_amp : list Q := map (fun x => 30 + 20 * x - (1 # 4) * (x * x))%Q ex_t.
Definition ex_om : list Q := map (fun _ => 1%Q) ex_t.
Definition neg (l : list Q) : list Q := map Qopp l.
Definition ex_d (keys : list (string * nat)) : sdict (dval ex_c) :=
  (("t", VArr ex_c ex_t) :: map (fun k => (fst k, VRef ex_c (snd k))) keys)%list.
Definition ex_real : sdict (dval ex_c) := ex_d [("amplm", 1); ("phaselm", 2)].
Definition ex_omega : sdict (dval ex_c) := ex_d [("amplm", 1); ("phaselm", 2); ("omegalm", 3)].
Definition ex_cplx : sdict (dval ex_c) := ex_d [("hlm", 4)].
Definition both (f : list Q -> list Q) (a : list Q) : mdict (list Q) :=
  [((2, 2)%Z, a); ((2, -2)%Z, f a); ((2, 1)%Z, map (fun _ => 0%Q) a); ((2, 0)%Z, map (fun _ => 0%Q) a); ((2, -1)%Z, map (fun _ => 0%Q) a)].
Definition ex_heap (d : sdict (dval ex_c)) : heap ex_c :=
  [OTop ex_c d; OReal ex_c (both (fun a => a) ex_amp); OReal ex_c (both neg ex_ph); OReal ex_c (both neg ex_om);
   OCplx ex_c [((2, 2)%Z, (ex_amp, ex_ph)); ((2, -2)%Z, (ex_amp, neg ex_ph)); ((2, 1)%Z, (neg ex_om, ex_om)); ((2, 0)%Z, (ex_om, ex_om)); ((2, -1)%Z, (ex_om, ex_om))]].
Definition ex_process (precessing : bool) (frame : string) (num : option Q) (d : sdict (dval ex_c)) :=
  process_data_dict ex_c fst snd (fun a p => Ok (a, p)) (fun _ cols => Ok cols) (fun x => x) 1 precessing frame num 0 (ex_heap d).
Definition succeeds {A} (r : heap ex_c * lg A) : bool := match snd (snd r) with Ok _ => true | Err _ => false end.
Definition raises {A} (r : heap ex_c * lg A) : option exn := match snd (snd r) with Ok _ => None | Err e => Some e end.
(** merger time, width and numbers of samples *)
Definition ex_view (r : heap ex_c * lg (processed ex_c)) : option (Q * Z * nat) :=
  match snd (snd r) with
  | Ok x => Some (Qred (p_t_merger _ x), p_width _ x, match slookup (p_dict _ x) "t" with Some (VArr _ t) => length t | _ => 0 end)
  | Err _ => None
  end.
Definition lengths (r : heap ex_c * lg (processed ex_c)) : list nat :=
  match snd (snd r) with
  | Ok x => (match slookup (p_dict _ x) "t" with Some (VArr _ t) => [length t] | _ => [] end ++
             flat_map (fun k => match slookup (p_dict _ x) k with
                                | Some v => match real_of ex_c (fst r) v with Ok m => map (fun ka => length (snd ka)) m | Err _ => [] end
                                | None => [] end) ["amplm"; "phaselm"; "omegalm"])%list
  | Err _ => []
  end.
Lemma ex_symmetric : exists h0 w r0, ex_process false "inertial" None ex_omega = (h0, (w, Ok r0)) /\ reflection_symmetric (ex_heap ex_omega) (p_dict ex_c r0).
Proof.
  destruct (ex_process false "inertial" None ex_omega) as [h0 [w r]] eqn:E.
  assert (S : match r with Ok x => match slookup (p_dict ex_c x) "amplm", slookup (p_dict ex_c x) "phaselm", slookup (p_dict ex_c x) "omegalm" with
    Some (VReal _ a), Some (VReal _ b), Some (VRef _ q) => a = both (fun a => a) ex_amp /\ b = both neg ex_ph /\ q = 3 | _, _, _ => False end | Err _ => False end).
  { assert (Er : r = snd (snd (ex_process false "inertial" None ex_omega))) by now rewrite E. rewrite Er. clear. vm_compute. auto. }
  destruct r as [x|]; [|contradiction]. exists h0, w, x. split; [reflexivity|].
  destruct (slookup (p_dict ex_c x) "amplm") as [[| a | | |]|] eqn:E1; try contradiction.
  destruct (slookup (p_dict ex_c x) "phaselm") as [[| b | | |]|] eqn:E2; try contradiction.
  destruct (slookup (p_dict ex_c x) "omegalm") as [[| | | q |]|] eqn:E3; try contradiction. destruct S as (-> & -> & ->).
  exists ex_amp, ex_amp, ex_ph, (neg ex_ph), ex_om, (neg ex_om).
  assert (R : forall l, Forall2 (fun x y => y == x)%Q l l) by (induction l; constructor; [reflexivity|assumption]).
  assert (N : forall l, Forall2 (fun x y => y == - x)%Q l (neg l)) by (induction l; constructor; [reflexivity|assumption]).
  assert (A1 : forall m y, dlookup mode_eqb (both (fun a => a) ex_amp) m = Some y -> array_of (ex_heap ex_omega) (p_dict ex_c x) "amplm" m y).
  { intros m y H. eexists. split; [exact E1|]. left. eexists. split; [reflexivity|exact H]. }
  assert (A2 : forall m y, dlookup mode_eqb (both neg ex_ph) m = Some y -> array_of (ex_heap ex_omega) (p_dict ex_c x) "phaselm" m y).
  { intros m y H. eexists. split; [exact E2|]. left. eexists. split; [reflexivity|exact H]. }
  assert (A3 : forall m y, dlookup mode_eqb (both neg ex_om) m = Some y -> array_of (ex_heap ex_omega) (p_dict ex_c x) "omegalm" m y).
  { intros m y H. eexists. split; [exact E3|]. right. exists 3. eexists. split; [reflexivity|]. split; [reflexivity|exact H]. }
  split; [apply A1; reflexivity|]. split; [apply A1; reflexivity|]. split; [apply R|]. split; [apply A2; reflexivity|]. split; [apply A2; reflexivity|].
  split; [apply N|]. split; [apply A3; reflexivity|]. split; [apply A3; reflexivity|]. apply N.
Qed.
