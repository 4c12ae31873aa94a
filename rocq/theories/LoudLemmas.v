From Coq Require Import Lia Lqa.
From Verif Require Import Base BaseLemmas UtilsModel UtilsSpec RationalModel MeasureModel DataModel InitModel ScaleSpec ScaleCallSpec ScaleLemmas ScaleCall OriginSpec OriginLemmas LoudSpec.
Open Scope string_scope.
Open Scope nat_scope.
Open Scope list_scope.

Lemma kind_amps k : kind_of k = Amplitudes <-> In k ["amplm"; "amplm_zeroecc"].
Proof.
  unfold kind_of. destruct (String.eqb_spec k "omegalm") as [->|N1]; cbn [orb].
  { split; [discriminate|]. intros [H|[H|[]]]; discriminate H. }
  destruct (String.eqb_spec k "omegalm_zeroecc") as [->|N2]; cbn [orb].
  { split; [discriminate|]. intros [H|[H|[]]]; discriminate H. }
  destruct (String.eqb_spec k "phaselm") as [->|N3]; cbn [orb].
  { split; [discriminate|]. intros [H|[H|[]]]; discriminate H. }
  destruct (String.eqb_spec k "phaselm_zeroecc") as [->|N4]; cbn [orb].
  { split; [discriminate|]. intros [H|[H|[]]]; discriminate H. }
  destruct (String.eqb_spec k "amplm") as [->|N5]; cbn [orb].
  { split; [intros _; left; reflexivity|reflexivity]. }
  destruct (String.eqb_spec k "amplm_zeroecc") as [->|N6]; cbn [orb].
  { split; [intros _; right; left; reflexivity|reflexivity]. }
  split; [discriminate|]. intros [H|[H|[]]]; congruence.
Qed.
Lemma phases_self d : same_modes (same_phases false) d d.
Proof. unfold same_modes. induction d; constructor; [|assumption]. split; reflexivity. Qed.
Section Loud.
  Context {C : Type}.
  Variable k : Q.
  Variable holds : nat -> kind.
  Lemma loud_value key (v v' : dval C) : loud_entry k holds key v v' -> same_value 1 0 (louder k) holds key v v'.
  Proof.
    intros [d d' Hk Hd|p Hp|l|d Hk|]; cbn.
    - apply kind_amps in Hk. rewrite Hk. exact Hd.
    - split; [reflexivity|exact Hp].
    - destruct (String.eqb key "t"); [apply clock_self|]. destruct (String.eqb key "t_zeroecc"); [|reflexivity]. exists 0%Q. apply clock_self.
    - destruct (kind_of key) eqn:E; cbn; [apply modes_self|apply phases_self| |reflexivity]. apply kind_amps in E. contradiction.
    - exact I.
  Qed.
  Lemma loud_dicts (d d' : sdict (dval C)) : loud_dict k holds d d' -> same_dict 1 0 (louder k) holds d d'.
  Proof. unfold loud_dict, same_dict. induction 1 as [|x x' d d' [H1 H2] H IH]; constructor; [|assumption]. split; [exact H1|apply loud_value; exact H2]. Qed.
  Lemma loud_objs p (x x' : obj C) : loud_obj k holds p x x' -> same_obj 1 0 (louder k) holds (holds p) x x'.
  Proof.
    intros [d d' Hk Hd|d Hk|d d' Hd]; cbn.
    - rewrite Hk. exact Hd.
    - destruct (holds p); cbn; [apply modes_self|apply phases_self|congruence|reflexivity].
    - apply loud_dicts. exact Hd.
  Qed.
  Lemma loud_worlds (w w' : world C) : loud_world k holds w w' -> same_world 1 0 (louder k) holds w w'.
  Proof.
    intros [H1 H2 H3]. constructor; [|exact H3]. intros p. specialize (H2 p).
    destruct (nth_error (wd_heap w) p) as [x|] eqn:E, (nth_error (wd_heap w') p) as [x'|] eqn:E'; [|exfalso|exfalso|constructor].
    - constructor. apply loud_objs. apply H2; reflexivity.
    - apply nth_error_None in E'. assert (p < length (wd_heap w)) by (apply nth_error_Some; rewrite E; discriminate). lia.
    - apply nth_error_None in E. assert (p < length (wd_heap w')) by (apply nth_error_Some; rewrite E'; discriminate). lia.
  Qed.
End Loud.
Theorem loud_call {C V} k holds (L : library C V) m x p w w' :
  library_scale 1 0 L -> calls_scale 1 0 (louder k) holds L m x -> (spline_chosen (wd_extra w) \/ fit_affine 1 0 (lib_rational L)) ->
  level_free m (wd_extra w) -> loud_world k holds w w' ->
  let r := measure_eccentricity L m x p w in let r' := measure_eccentricity L m x p w' in
  fst (snd r') = fst (snd r) /\ same_res equal_return (snd (snd r)) (snd (snd r')) /\ wd_extra (fst r') = wd_extra (fst r).
Proof.
  intros HL HC Hi Hl Hw. cbv zeta.
  destruct (existsb (String.eqb m) available_methods) eqn:Hm.
  2:{ unfold measure_eccentricity. rewrite Hm. cbn. split; [reflexivity|]. split; [constructor; left; reflexivity|apply Hw]. }
  assert (F : free_search 1 (louder k) m (wd_extra w)).
  { destruct Hl as [N|N]; [|left; exact N]. apply existsb_exists in Hm. destruct Hm as (y & Hm & Ey). apply String.eqb_eq in Ey. subst y.
    cbn in Hm. destruct Hm as [<-|[<-|[<-|[<-|[<-|[<-|[]]]]]]]; try (exfalso; apply N; cbn; auto; fail).
    - right; right; right; right. split; [left; reflexivity|reflexivity].
    - right; right; right; right. split; [right; left; reflexivity|reflexivity].
    - right; left. left. reflexivity.
    - right; left. right. left. reflexivity. }
  pose proof (call_rel 1 0 (louder k) holds L eq_refl HL m x x p w w' HC (args_self x) (loud_worlds k holds w w' Hw) Hi F) as (K1 & K2 & K3).
  split; [exact K2|]. split; [|apply K1]. destruct K3 as [d d' Hd|e e' He]; constructor; [apply return_eq; exact Hd|exact He].
Qed.
