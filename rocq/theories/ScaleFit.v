(** The stopping rule of the rational fitter under a change of units, and the eccentricity formula. *)
From Coq Require Import Lia Lqa Qfield.
From Verif Require Import Base BaseLemmas UtilsModel UtilsSpec RationalModel MeasureModel ScaleSpec ScaleLemmas.
Open Scope nat_scope.

Section Fit.
  Context {W A : Type}.
  Variables (step step' : W -> res (A * list Q * W)) (norm : list Q -> Q) (y y' : list Q) (k : Q).
  Hypothesis Hk : (0 < k)%Q.
  Hypothesis Hy : Forall2 (same_time k 0) y y'.
  Hypothesis Hstep : forall q, match step q, step' q with
    | Ok (x, r, q1), Ok (x', r', q1') => x' = x /\ q1' = q1 /\ Forall2 (same_time k 0) r r'
    | Err e, Err e' => e' = e
    | _, _ => False end.
  Hypothesis Hnorm : forall l l', Forall2 (same_time k 0) l l' -> same_time k 0 (norm l) (norm l').
  Definition HE (h h' : hist_entry A) : Prop := h_coef h' = h_coef h /\ same_time k 0 (h_res h) (h_res h') /\ same_time k 0 (h_delta h) (h_delta h').
  Lemma qsub_rel l l' m m' : Forall2 (same_time k 0) l l' -> Forall2 (same_time k 0) m m' -> Forall2 (same_time k 0) (qsub l m) (qsub l' m').
  Proof. intros H K. unfold qsub. eapply f2_map2; [|exact H|exact K]. intros u u' v v' Hu Hv. eapply T_minus; eassumption. Qed.
  Lemma fit_loop_rel iters : forall q o o' tol h h', Forall2 (same_time k 0) o o' -> Forall2 HE h h' ->
    match fit_loop step norm y iters q o tol h, fit_loop step' norm y' iters q o' (k * tol) h' with
    | Ok l, Ok l' => Forall2 HE l l' | Err e, Err e' => e' = e | _, _ => False end.
  Proof.
    induction iters as [|n IH]; intros q o o' tol h h' Ho Hh; cbn [fit_loop]; [exact Hh|].
    specialize (Hstep q). destruct (step q) as [[[x r] q1]|e], (step' q) as [[[x' r'] q1']|e']; try contradiction.
    - destruct Hstep as (-> & -> & Hr). cbn [h_delta].
      set (e := {| h_coef := x; h_res := norm (qsub r y); h_delta := norm (qsub r o) |}).
      set (e' := {| h_coef := x; h_res := norm (qsub r' y'); h_delta := norm (qsub r' o') |}).
      assert (E : HE e e') by (repeat split; apply Hnorm; apply qsub_rel; assumption).
      assert (L : Forall2 HE (h ++ [e]) (h' ++ [e'])) by (apply Forall2_app; [exact Hh|constructor; [exact E|constructor]]).
      rewrite (T_lt k 0 (norm (qsub r o)) tol (norm (qsub r' o')) (k * tol) Hk); [|apply E|unfold same_time; ring].
      destruct (Qlt_bool _ tol); [exact L|]. apply IH; assumption.
    - subst e'. destruct e; try reflexivity. exact Hh.
  Qed.
  Lemma min_rel l l' : Forall2 HE l l' -> forall e e', HE e e' -> HE (min_entry e l) (min_entry e' l').
  Proof.
    induction 1 as [|x x' l l' Hx H IH]; intros e e' He; cbn; [exact He|].
    rewrite (T_lt k 0 (h_res x) (h_res e) (h_res x') (h_res e') Hk); [|apply Hx|apply He]. destruct (Qlt_bool _ _); apply IH; assumption.
  Qed.
  Lemma fit_rel q iters tol :
    match fit step norm y q iters tol, fit step' norm y' q iters (k * tol) with
    | Ok (e, h), Ok (e', h') => h_coef e' = h_coef e /\ length h' = length h | Err e, Err e' => e' = e | _, _ => False end.
  Proof.
    unfold fit. assert (Z : Forall2 (same_time k 0) (map (fun _ => 0%Q) y) (map (fun _ => 0%Q) y')) by (eapply f2_map; [|exact Hy]; intros; apply T_zero).
    pose proof (fit_loop_rel iters q _ _ tol [] [] Z (Forall2_nil _)) as F.
    destruct (fit_loop step norm y iters q _ tol []) as [h|e], (fit_loop step' norm y' iters q _ (k * tol) []) as [h'|e']; try contradiction; cbn; [|exact F].
    destruct F as [|x x' l l' Hx H]; [reflexivity|]. pose proof (min_rel l l' H x x' Hx) as M. split; [apply M|]. cbn. f_equal. eapply f2_length; exact H.
  Qed.
End Fit.

(** A fitter whose first guess misses the value 1 by 1 and whose second one is exact. *)
Definition two_guesses (k : Q) (n : nat) : res (nat * list Q * nat) := Ok (n, [if (n =? 0)%nat then (k * 2)%Q else (k * 1)%Q], S n).
Definition norm1 (l : list Q) : Q := qsum (map Qabs l).
Lemma two_guesses_scale k n : match two_guesses 1 n, two_guesses k n with
    | Ok (x, r, q1), Ok (x', r', q1') => x' = x /\ q1' = q1 /\ Forall2 (same_time k 0) r r'
    | Err e, Err e' => e' = e
    | _, _ => False end.
Proof. cbn. repeat split. constructor; [|constructor]. unfold same_time. destruct (n =? 0)%nat; ring. Qed.
Lemma norm1_scale k l l' : (0 < k)%Q -> Forall2 (same_time k 0) l l' -> same_time k 0 (norm1 l) (norm1 l').
Proof.
  intros Hk. induction 1 as [|x x' l l' Hx H IH]; [unfold same_time, norm1; cbn; ring|]. unfold same_time, norm1 in *. cbn. rewrite IH, Hx.
  rewrite Qplus_0_r, Qabs_Qmult, (Qabs_pos k) by lra. ring.
Qed.
