(** Claims about whole calls of find_extrema of the fit-based methods, the envelope over the reals, and example data. *)
From Coq Require Import Sorting.Sorted Reals Lra.
From Verif Require Import Base BaseLemmas FitsModel FitsSpec FitsLemmas.
Open Scope string_scope.
Open Scope list_scope.
Open Scope nat_scope.

(** ** No call runs out of passes *)
Lemma nf_ok {A} (a : A) : nf (Ok a).
Proof. discriminate. Qed.
Lemma nf_bind {A B} (r : res A) (f : A -> res B) : nf r -> (forall a, r = Ok a -> nf (f a)) -> nf (bind r f).
Proof. intros H G. destruct r as [a|e]; cbn; [auto|]. intros E. apply H. congruence. Qed.
Lemma nf_get {A} (l : list A) i : nf (get l i).
Proof. unfold get. destruct (nth_error l i); discriminate. Qed.
Lemma nf_zget {A} (l : list A) i : nf (zget l i).
Proof. unfold zget. destruct (_ <=? _)%Z; [apply nf_get|]. destruct (_ <=? _)%Z; [apply nf_get|discriminate]. Qed.
Lemma nf_last {A} (l : list A) : nf (last_of l).
Proof. apply nf_zget. Qed.
Lemma nf_gather {A} (l : list A) idx : nf (gather l idx).
Proof. induction idx as [|i idx IH]; cbn; [discriminate|]. apply nf_bind; [apply nf_get|]. intros. apply nf_bind; [exact IH|]. discriminate. Qed.
Lemma nf_qmax l : nf (qmax l).
Proof. destruct l; discriminate. Qed.
Lemma nf_qmin l : nf (qmin l).
Proof. destruct l; discriminate. Qed.
Lemma nf_eval {A B} (f : A -> res B) l : (forall a, nf (f a)) -> nf (eval_all f l).
Proof. intros H. induction l as [|a l IH]; cbn; [discriminate|]. apply nf_bind; [apply H|]. intros. apply nf_bind; [exact IH|]. discriminate. Qed.

Section Claims.
  Context (env : Q -> params -> Q -> res Q)
          (curve_fit : Q -> list Q -> list Q -> params -> params * params -> res params)
          (find_peaks : list Q -> Z -> Q -> res (list nat))
          (parabola : list Q -> list Q -> res (Q * Q))
          (cubic : list Q -> list Q -> Q -> res Q).
  Notation near_step := (near_step env curve_fit find_peaks parabola cubic).
  Notation near_loop := (near_loop env curve_fit find_peaks parabola cubic).
  Notation find_near := (find_near env curve_fit find_peaks parabola cubic).
  Notation outer_step := (outer_step env curve_fit find_peaks parabola cubic).
  Notation outer_loop := (outer_loop env curve_fit find_peaks parabola cubic).
  Notation search := (search env curve_fit find_peaks parabola cubic).
  Notation find_extrema := (find_extrema env curve_fit find_peaks parabola cubic).

  Notation library_returns := (library_returns env curve_fit find_peaks parabola cubic).
  Section Safe.
    Hypothesis L : library_returns.
    Lemma nf_envelope t0 p ts : nf (envelope env t0 p ts).
    Proof. unfold envelope. apply nf_bind; [apply nf_qmax|]. intros m _. destruct (Qlt_bool _ _); [discriminate|]. apply nf_eval. intros. apply L. Qed.
    Lemma nf_residual d t0 lo hi p : nf (residual env d t0 lo hi p).
    Proof. unfold residual. apply nf_bind; [apply nf_envelope|]. discriminate. Qed.
    Lemma nf_spread l : nf (spread l).
    Proof. unfold spread. apply nf_bind; [apply nf_qmax|]. intros. apply nf_bind; [apply nf_qmin|]. discriminate. Qed.
    Lemma nf_asked d t0 lo hi p : nf (distance_and_prominence env d t0 lo hi p).
    Proof.
      unfold distance_and_prominence. apply nf_bind; [apply nf_qmax|]. intros step _.
      apply nf_bind; [apply nf_zget|]. intros ? _. apply nf_bind; [apply nf_get|]. intros ? _.
      apply nf_bind; [apply nf_zget|]. intros ? _. apply nf_bind; [apply nf_get|]. intros ? _.
      destruct (Qeq_bool _ _); [discriminate|]. destruct (Qeq_bool _ _); [discriminate|].
      apply nf_bind; [apply nf_residual|]. intros ? _. apply nf_bind; [apply nf_spread|]. discriminate.
    Qed.
    Lemma nf_refine d t0 p x : nf (refine_one env parabola cubic d t0 p x).
    Proof.
      unfold refine_one. destruct x as [[t y] ph]. destruct (Qeq_bool _ _); [discriminate|]. destruct (_ <=? _); [|discriminate].
      apply nf_bind; [apply nf_gather|]. intros ? _. apply nf_bind; [apply nf_gather|]. intros ? _.
      apply nf_bind; [apply nf_envelope|]. intros ? _. apply nf_bind; [apply L|]. intros ? _.
      apply nf_bind; [apply nf_envelope|]. intros ? _. apply nf_bind; [apply nf_get|]. intros ? _.
      apply nf_bind; [apply nf_gather|]. intros ? _. apply nf_bind; [apply L|]. discriminate.
    Qed.
    Lemma nf_left d before idx lo ref K nl nr : nf (move_left d before idx lo ref K nl nr).
    Proof.
      unfold move_left. destruct (_ <? _).
      { apply nf_bind; [apply nf_get|]. intros ? _. apply nf_bind; [apply nf_get|]. discriminate. }
      destruct (_ <? _); [|discriminate]. destruct (_ =? _).
      - destruct (_ <=? _); [|discriminate]. apply nf_bind; [apply nf_get|]. intros ? _. apply nf_bind; [apply nf_get|]. discriminate.
      - apply nf_bind; [apply nf_get|]. discriminate.
    Qed.
    Lemma nf_right d after idx hi K nr : nf (move_right d after idx hi K nr).
    Proof.
      unfold move_right. destruct (_ <? _).
      { apply nf_bind; [apply nf_zget|]. intros ? _. apply nf_bind; [apply nf_zget|]. discriminate. }
      destruct (_ <? _); [|discriminate]. destruct (_ <? _); [|discriminate]. apply nf_bind; [apply nf_get|]. discriminate.
    Qed.
    Lemma nf_near_step d t0 b sign before after dist prom s : nf (near_step d t0 b sign before after dist prom s).
    Proof.
      unfold FitsModel.near_step. apply nf_bind; [apply nf_residual|]. intros r _. apply nf_bind; [apply nf_spread|]. intros ? _.
      apply nf_bind; [apply L|]. intros peaks _. cbn zeta. do 4 (apply nf_bind; [apply nf_gather|]; intros ? _).
      apply nf_bind.
      { destruct (_ <=? _); [|discriminate]. apply nf_bind; [apply nf_get|]. intros ? _. apply nf_bind; [apply nf_last|]. discriminate. }
      intros K _. apply nf_bind.
      { destruct (f_refine d); [|discriminate]. apply nf_eval. intros. apply nf_refine. }
      intros info _. match goal with |- nf (if ?c then _ else _) => destruct c end; [discriminate|].
      apply nf_bind.
      { match goal with |- nf (if ?c then _ else _) => destruct c end; [discriminate|].
        apply nf_bind; [apply nf_left|]. intros [[? ?] ?] _. apply nf_bind; [apply nf_right|]. discriminate. }
      intros [[[lo hi] ref] nr] _. match goal with |- nf (if ?c then _ else _) => destruct c end; [discriminate|].
      apply nf_bind.
      { match goal with |- nf (if ?c then _ else _) => destruct c end; [|discriminate]. apply nf_bind; [apply nf_qmax|]. discriminate. }
      intros delta _. do 3 (match goal with |- nf (if ?c then _ else _) => destruct c end; [discriminate|]).
      apply nf_bind; [apply L|]. discriminate.
    Qed.
    Lemma nf_near_loop d t0 b sign before after dist prom : forall fuel s, n_it s <= 20 -> 21 <= n_it s + fuel ->
      nf (near_loop d t0 b sign fuel before after dist prom s).
    Proof.
      induction fuel as [|fuel IH]; intros s H1 H2; [lia|]. cbn [FitsModel.near_loop]. apply nf_bind; [apply nf_near_step|].
      intros [r|s'] E; [discriminate|]. apply near_step_it in E. apply IH; lia.
    Qed.
    Lemma nf_find_near d t0 b sign fuel before after ref K p : 21 <= fuel -> nf (find_near d t0 b sign fuel before after ref K p).
    Proof.
      intros F. unfold FitsModel.find_near, near_start. apply nf_bind; [apply nf_bind; [apply nf_get|discriminate]|].
      intros s E. apply bind_ok in E; destruct E as (x & _ & E). apply Ok_inj in E. subst s.
      apply nf_bind; [apply nf_asked|]. intros w _. apply nf_near_loop; cbn [n_it]; lia.
    Qed.
    Lemma nf_outer_step d t0 b sign inner s : 21 <= inner -> nf (outer_step d t0 b sign inner s).
    Proof.
      intros F. unfold FitsModel.outer_step. apply nf_bind; [now apply nf_find_near|]. intros f _. cbn zeta. apply nf_bind.
      { destruct (_ <? _); [discriminate|]. apply nf_bind; [apply nf_get|]. discriminate. }
      intros te _. apply nf_bind.
      { destruct (_ <=? _); [|destruct te; discriminate]. apply nf_bind.
        - destruct (_ =? _)%Z; [|discriminate]. apply nf_bind; [apply nf_gather|]. intros ? _. apply nf_bind; [apply nf_gather|]. discriminate.
        - intros fs _. apply nf_bind; [apply nf_get|]. intros m _. apply nf_bind.
          + destruct (_ <? _); [|discriminate]. apply nf_bind; [apply nf_get|]. discriminate.
          + intros [[[? ?] ?] ?] _. destruct te; discriminate. }
      intros [[[? ?] ?] ?] _. destruct te; [discriminate|].
      apply nf_bind; [apply nf_get|]. intros ? _. apply nf_bind; [apply nf_get|]. intros ? _. destruct (_ <? _)%Z; discriminate.
    Qed.
    Lemma nf_outer_loop d t0 b sign inner : 21 <= inner -> forall fuel s,
      (o_count s <= 10000)%Z -> (10001 <= o_count s + Z.of_nat fuel)%Z -> nf (outer_loop d t0 b sign fuel inner s).
    Proof.
      intros F. induction fuel as [|fuel IH]; intros s H1 H2; [lia|]. cbn [FitsModel.outer_loop]. apply nf_bind; [now apply nf_outer_step|].
      intros [r|s'] E; [discriminate|]. apply outer_step_count in E. apply IH; lia.
    Qed.
    Lemma nf_search d sign fuel inner : (10001 <= Z.of_nat fuel)%Z -> 21 <= inner -> nf (search fuel inner d sign).
    Proof.
      intros F G. unfold FitsModel.search. apply nf_bind; [apply nf_get|]. intros ? _. cbn zeta.
      apply nf_bind; [apply nf_get|]. intros ? _. apply nf_bind; [apply nf_last|]. intros ? _.
      apply nf_bind; [apply nf_get|]. intros ? _. apply nf_bind; [apply nf_zget|]. intros ? _.
      destruct (Qeq_bool _ _); [discriminate|]. apply nf_bind; [apply L|]. intros ? _. destruct (_ =? _); [discriminate|].
      apply nf_outer_loop; cbn [o_count]; lia.
    Qed.
  End Safe.

  (** C40: the search stops within 10001 local searches of at most 21 passes each. *)
  Lemma terminates d sign fuel inner : library_returns -> (10001 <= Z.of_nat fuel)%Z -> 21 <= inner ->
    search fuel inner d sign <> Err OutOfFuel /\ search fuel inner d sign = search (Z.to_nat 10001) 21 d sign.
  Proof.
    intros L F G. split; [now apply nf_search|].
    replace inner with (21 + (inner - 21)) by lia.
    assert (Z1 : Z.of_nat (Z.to_nat 10001) = 10001%Z) by (apply Z2Nat.id; discriminate).
    set (n := Z.to_nat 10001) in *. clearbody n. replace fuel with (n + (fuel - n)) by lia. apply search_fuel. lia.
  Qed.

  Definition sign_of (kind : string) : option Q :=
    if String.eqb kind "pericenters" then Some 1%Q else if String.eqb kind "apocenters" then Some (-1)%Q else None.
  Lemma find_extrema_eq d tm kind : find_extrema d tm kind =
    match sign_of kind with
    | None => (f_t d, Err GenericException)
    | Some sign => match search (Z.to_nat 10001) 21 (from_merger d tm) sign with
                   | Ok r => (map (fun t => t + tm)%Q (map (fun t => t - tm)%Q (f_t d)), Ok r)
                   | Err e => (map (fun t => t - tm)%Q (f_t d), Err e)
                   end
    end.
  Proof. unfold FitsModel.find_extrema, sign_of. destruct (kind =? "pericenters")%string; [reflexivity|]. now destruct (kind =? "apocenters")%string. Qed.

  (** C40: what is returned. *)
  Lemma returned d tm kind times locations info : peaks_contract find_peaks ->
    find_extrema d tm kind = (times, Ok (locations, info)) ->
    (kind = "pericenters" /\ found_in env find_peaks parabola cubic (from_merger d tm) 1 locations info) \/
    (kind = "apocenters" /\ found_in env find_peaks parabola cubic (from_merger d tm) (-1) locations info).
  Proof.
    intros C. rewrite find_extrema_eq.
    assert (G : forall sign, search (Z.to_nat 10001) 21 (from_merger d tm) sign = Ok (locations, info) ->
                found_in env find_peaks parabola cubic (from_merger d tm) sign locations info).
    { intros sign H. apply search_listed in H; [|exact C]. destruct H as (t0 & Hc & S & F & G). cbn [fst snd] in *.
      split; [exact S|]. split; [|exists t0; repeat split; auto].
      rewrite Forall_forall in *. intros i Hi. destruct (F i Hi) as (lo & hi & p & r & dist & prom & peaks & k & D & _ & E & Ik & ->).
      apply C in E. destruct E as [_ E]. rewrite Forall_forall in E. specialize (E k Ik). rewrite map_length in E.
      apply detrended_length in D. lia. }
    unfold sign_of. destruct (kind =? "pericenters")%string eqn:E1.
    { apply String.eqb_eq in E1. intros H. left. split; [exact E1|]. apply G.
      destruct (search (Z.to_nat 10001) 21 (from_merger d tm) 1); [|discriminate]. now injection H as _ ->. }
    destruct (kind =? "apocenters")%string eqn:E2; [|discriminate].
    apply String.eqb_eq in E2. intros H. right. split; [exact E2|]. apply G.
    destruct (search (Z.to_nat 10001) 21 (from_merger d tm) (-1)); [|discriminate]. now injection H as _ ->.
  Qed.

  (** C40: data too short. *)
  Lemma too_short d tm kind ph0 : nth_error (f_phase d) 0 = Some ph0 ->
    Forall (fun y => y <= ph0 + (11 # 10) * inject_Z (Z.of_nat (f_orbits d) - 1) * 4 * np_pi)%Q (f_phase d) \/ f_orbits d = 0 ->
    exists times e, find_extrema d tm kind = (times, Err e).
  Proof.
    intros H1 H2. rewrite find_extrema_eq. destruct (sign_of kind) as [sign|]; [|eauto].
    destruct (search_short env curve_fit find_peaks parabola cubic (from_merger d tm) sign (Z.to_nat 10001) 21 ph0 H1 H2) as [e ->]. eauto.
  Qed.

  (** C41 *)
  Lemma times_after d tm kind :
    match find_extrema d tm kind with
    | (times, Ok _) => Forall2 Qeq times (f_t d)
    | (times, Err _) => if existsb (String.eqb kind) ["pericenters"; "apocenters"]
                        then Forall2 (fun after before => after = before - tm)%Q times (f_t d) else times = f_t d
    end.
  Proof.
    rewrite find_extrema_eq. unfold sign_of. cbn [existsb]. rewrite orb_false_r.
    assert (A : Forall2 Qeq (map (fun t => t + tm)%Q (map (fun t => t - tm)%Q (f_t d))) (f_t d)).
    { induction (f_t d) as [|t l IH]; cbn; constructor; [ring|exact IH]. }
    assert (B : Forall2 (fun after before => after = before - tm)%Q (map (fun t => t - tm)%Q (f_t d)) (f_t d)).
    { clear A. induction (f_t d) as [|t l IH]; cbn; constructor; [reflexivity|exact IH]. }
    destruct (kind =? "pericenters")%string; cbn [orb].
    { destruct (search (Z.to_nat 10001) 21 (from_merger d tm) 1); assumption. }
    destruct (kind =? "apocenters")%string; [|reflexivity].
    destruct (search (Z.to_nat 10001) 21 (from_merger d tm) (-1)); assumption.
  Qed.

  (** C42, the error branch. *)
  Lemma beyond t0 p ts t : In t ts -> (q_T p < t)%Q -> envelope env t0 p ts = Err GenericException.
  Proof.
    intros I H. unfold envelope. destruct (qmax ts) as [m|e] eqn:E.
    - cbn [bind]. apply qmax_ok in E. destruct E as [_ E]. specialize (E t I).
      destruct (Qlt_bool (q_T p) m) eqn:Eb; [reflexivity|]. apply Qlt_bool_false in Eb.
      exfalso. apply (Qlt_irrefl (q_T p)). eapply Qlt_le_trans; [exact H|]. eapply Qle_trans; eassumption.
    - destruct ts; [contradiction|discriminate].
  Qed.
  Lemma inside t0 p ts : ts <> [] -> (forall t, In t ts -> t <= q_T p)%Q -> envelope env t0 p ts = eval_all (env t0 p) ts.
  Proof.
    intros N H. unfold envelope. destruct (qmax ts) as [m|e] eqn:E; [|destruct ts; [contradiction|discriminate]].
    cbn [bind]. apply qmax_ok in E. destruct E as [I _]. destruct (Qlt_bool (q_T p) m) eqn:Eb; [|reflexivity].
    apply Qlt_bool_iff in Eb. exfalso. apply (Qlt_not_le _ _ Eb). auto.
  Qed.
End Claims.

(** ** Example data: an extremum of each kind every eight samples, a peak finder that looks for local maxima, a constant envelope. *)
Definition toy_env (t0 : Q) (p : params) (t : Q) : res Q := Ok (q_f0 p).
Definition toy_curve_fit (t0 : Q) (ts ys : list Q) (p : params) (b : params * params) : res params :=
  Ok {| q_f0 := q_f0 p; q_f1 := q_f1 p; q_T := 100 |}.
Fixpoint toy_local (i : nat) (l : list Q) : list nat :=
  match l with
  | a :: (b :: c :: _) as r => (if Qlt_bool a b && Qlt_bool c b then [S i] else []) ++ toy_local (S i) r
  | _ => []
  end.
Definition toy_find_peaks (l : list Q) (distance : Z) (prominence : Q) : res (list nat) := Ok (toy_local 0 l).
Definition toy_parabola (ts ys : list Q) : res (Q * Q) := Ok (nth 3 ts 0%Q, nth 3 ys 0%Q).
Definition toy_cubic (ts ys : list Q) (t : Q) : res Q := Ok (nth 3 ys 0%Q).
Definition toy_fits (orbits : nat) (refine : bool) (samples : nat) : fits :=
  {| f_t := map (fun i => inject_Z (Z.of_nat i)) (seq 0 samples); f_phase := map (fun i => (7 # 4) * inject_Z (Z.of_nat i))%Q (seq 0 samples);
     f_data := map (fun i => match i mod 8 with 4 => 1 # 80 | 3 | 5 => 1 # 100 | 0 => 1 # 200 | _ => 1 # 150 end) (seq 0 samples);
     f_nPN := - (3 # 8); f_amp_factor := 10; f_nPN_factor := 10; f_prominence := 3 # 100; f_distance := 75 # 100; f_orbits := orbits;
     f_global := 10; f_refine := refine |}.
Definition toy_call (orbits : nat) (refine : bool) (samples : nat) (kind : string) : list Q * res (list nat * list point) :=
  find_extrema toy_env toy_curve_fit toy_find_peaks toy_parabola toy_cubic (toy_fits orbits refine samples) 60 kind.
Definition toy_search (fuel inner : nat) : res (list nat * list point) :=
  search toy_env toy_curve_fit toy_find_peaks toy_parabola toy_cubic fuel inner (from_merger (toy_fits 3 true 64) 60) 1.
Definition toy_locations (x : list Q * res (list nat * list point)) : res (list nat) := do r <- snd x; Ok (fst r).
Lemma toy_local_ok l : forall i, StronglySorted lt (toy_local i l) /\ Forall (fun j => i < j < i + length l) (toy_local i l).
Proof.
  induction l as [|a l IH]; intros i; [repeat constructor|].
  destruct l as [|b [|c l]]; [repeat constructor..|].
  change (toy_local i (a :: b :: c :: l)) with ((if Qlt_bool a b && Qlt_bool c b then [S i] else []) ++ toy_local (S i) (b :: c :: l)).
  destruct (IH (S i)) as [S F].
  assert (F' : Forall (fun j => i < j < i + length (a :: b :: c :: l)) (toy_local (Datatypes.S i) (b :: c :: l))).
  { eapply Forall_impl; [|exact F]. cbn. intros; lia. }
  destruct (Qlt_bool a b && Qlt_bool c b); [|exact (conj S F')]. cbn [app]. split; constructor; auto; [|cbn; lia].
  eapply Forall_impl; [|exact F]. cbn. intros; lia.
Qed.
Lemma toy_contract : peaks_contract toy_find_peaks.
Proof.
  intros l dist prom idx H. apply Ok_inj in H. subst idx. destruct (toy_local_ok l 0) as [S F]. split; [exact S|].
  eapply Forall_impl; [|exact F]. cbn. intros; lia.
Qed.
Lemma toy_returns : library_returns toy_env toy_curve_fit toy_find_peaks toy_parabola toy_cubic.
Proof.
  repeat split; intros; discriminate.
Qed.
