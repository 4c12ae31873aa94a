From Coq Require Import Lia Lqa.
From Verif Require Import Base BaseLemmas UtilsModel UtilsSpec RationalModel MeasureModel DataModel InitModel ScaleSpec ScaleCallSpec ScaleLemmas ScaleCall OriginSpec.
Open Scope string_scope.
Open Scope nat_scope.
Open Scope list_scope.

Lemma kind_phases k : kind_of k = Phases <-> In k ["phaselm"; "phaselm_zeroecc"].
Proof.
  unfold kind_of. destruct (String.eqb_spec k "omegalm") as [->|N1]; cbn [orb].
  { split; [discriminate|]. intros [H|[H|[]]]; discriminate H. }
  destruct (String.eqb_spec k "omegalm_zeroecc") as [->|N2]; cbn [orb].
  { split; [discriminate|]. intros [H|[H|[]]]; discriminate H. }
  destruct (String.eqb_spec k "phaselm") as [->|N3]; cbn [orb].
  { split; [intros _; left; reflexivity|reflexivity]. }
  destruct (String.eqb_spec k "phaselm_zeroecc") as [->|N4]; cbn [orb].
  { split; [intros _; right; left; reflexivity|reflexivity]. }
  split; [destruct (String.eqb k "amplm" || String.eqb k "amplm_zeroecc"); discriminate|]. intros [H|[H|[]]]; congruence.
Qed.
Lemma times_self l : same_times 1 0 l l.
Proof. unfold same_times. induction l; constructor; [|assumption]. unfold same_time. ring. Qed.
Lemma freqs_self l : same_freqs 1 l l.
Proof. unfold same_freqs. induction l; constructor; [|assumption]. unfold same_freq. field. Qed.
Lemma modes_self d : same_modes (same_freqs 1) d d.
Proof. unfold same_modes. induction d; constructor; [|assumption]. split; [reflexivity|apply freqs_self]. Qed.
Lemma clock_self l : same_clock 1 0 l l.
Proof. split; [apply times_self|left; reflexivity]. Qed.
Lemma amps_self d : same_modes (same_amps None) d d.
Proof. unfold same_modes. induction d; constructor; [|assumption]. split; reflexivity. Qed.
Section Origin.
  Context {C : Type}.
  Variable holds : nat -> kind.
  Lemma value_rel k (v v' : dval C) : moved_entry holds k v v' -> same_value 1 0 any_phase holds k v v'.
  Proof.
    intros [d d' Hk Hd|p Hp|[l|d|d|p|] Hk Hv]; cbn.
    - apply kind_phases in Hk. rewrite Hk. exact Hd.
    - split; [reflexivity|exact Hp].
    - destruct (String.eqb k "t"); [apply clock_self|]. destruct (String.eqb k "t_zeroecc"); [|reflexivity]. exists 0%Q. apply clock_self.
    - destruct (kind_of k) eqn:E; cbn; [apply modes_self| |apply amps_self|reflexivity]. apply kind_phases in E. contradiction.
    - split; reflexivity.
    - exfalso. exact (Hv p eq_refl).
    - exact I.
  Qed.
  Lemma dict_rel (d d' : sdict (dval C)) : moved_dict holds d d' -> same_dict 1 0 any_phase holds d d'.
  Proof. unfold moved_dict, same_dict. induction 1 as [|x x' d d' [H1 H2] H IH]; constructor; [|assumption]. split; [exact H1|apply value_rel; exact H2]. Qed.
  Lemma obj_rel p (x x' : obj C) : moved_obj holds p x x' -> same_obj 1 0 any_phase holds (holds p) x x'.
  Proof.
    intros [d d' Hk Hd|d Hk|d|d d' Hd]; cbn.
    - rewrite Hk. exact Hd.
    - destruct (holds p); cbn; [apply modes_self|congruence|apply amps_self|reflexivity].
    - split; reflexivity.
    - apply dict_rel. exact Hd.
  Qed.
  Lemma world_rel (w w' : world C) : moved_world holds w w' -> same_world 1 0 any_phase holds w w'.
  Proof.
    intros [H1 H2 H3]. constructor; [|exact H3]. intros p. specialize (H2 p).
    destruct (nth_error (wd_heap w) p) as [x|] eqn:E, (nth_error (wd_heap w') p) as [x'|] eqn:E'; [|exfalso|exfalso|constructor].
    - constructor. apply obj_rel. apply H2; reflexivity.
    - apply nth_error_None in E'. assert (p < length (wd_heap w)) by (apply nth_error_Some; rewrite E; discriminate). lia.
    - apply nth_error_None in E. assert (p < length (wd_heap w')) by (apply nth_error_Some; rewrite E'; discriminate). lia.
  Qed.
End Origin.
Lemma args_self x : same_args 1 0 x x.
Proof.
  constructor; [| |reflexivity].
  - destruct (a_tref x) as [[q|l]|]; constructor; constructor; [unfold same_time; ring|apply times_self].
  - destruct (a_fref x) as [[q|l]|]; constructor; constructor; [unfold same_freq; field|apply freqs_self].
Qed.
Lemma numbers_eq (R : Q -> Q -> Prop) r r' : (forall x x', R x x' -> (x' == x)%Q) -> same_out R r r' -> equal_numbers r r'.
Proof.
  intros HR [x x' H|l l' H]; constructor; [apply HR; exact H|]. induction H; constructor; auto.
Qed.
Lemma return_eq {V} (d d' : sdict (entry V)) : same_return 1 0 d d' -> equal_return d d'.
Proof.
  unfold same_return, equal_return. induction 1 as [|[k e] [k' e'] d d' [H1 H2] H IH]; constructor; [|assumption]. split; [exact H1|]. cbn in H1, H2 |- *.
  destruct e as [e|r|], e' as [e'|r'|]; try exact H2.
  destruct (String.eqb k "tref_out"); [|destruct (String.eqb k "fref_out")]; (eapply numbers_eq; [|exact H2]); cbn; intros x x'.
  - unfold same_time. intros ->. ring.
  - unfold same_freq. intros ->. field.
  - intros ->. reflexivity.
Qed.
Lemma free_one m e : free_search 1 any_phase m e.
Proof. right; right; left. split; reflexivity. Qed.
Theorem origin_call {C V} holds (L : library C V) m x p w w' :
  library_scale 1 0 L -> calls_scale 1 0 any_phase holds L m x -> (spline_chosen (wd_extra w) \/ fit_affine 1 0 (lib_rational L)) -> moved_world holds w w' ->
  let r := measure_eccentricity L m x p w in let r' := measure_eccentricity L m x p w' in
  fst (snd r') = fst (snd r) /\ same_res equal_return (snd (snd r)) (snd (snd r')) /\ wd_extra (fst r') = wd_extra (fst r).
Proof.
  intros HL HC Hi Hw. cbv zeta.
  pose proof (call_rel 1 0 any_phase holds L eq_refl HL m x x p w w' HC (args_self x) (world_rel holds w w' Hw) Hi (free_one m _)) as (K1 & K2 & K3).
  split; [exact K2|]. split; [|apply K1]. destruct K3 as [d d' Hd|e e' He]; constructor; [apply return_eq; exact Hd|exact He].
Qed.
