From Coq Require Import Lia Lqa Qfield.
From Verif Require Import Base BaseLemmas UtilsModel UtilsSpec UtilsLemmas ExtremaModel RationalModel MeasureModel SegmentModel DataModel DataUnits InitModel ScaleSpec ScaleCallSpec ScaleLemmas ScaleMeasure ScalePeak.
Open Scope string_scope.
Open Scope nat_scope.
Open Scope list_scope.

Lemma nth_set {A} (l : list A) i x j : nth_error (set_nth l i x) j = if i =? j then match nth_error l j with Some _ => Some x | None => None end else nth_error l j.
Proof.
  revert i j. induction l as [|y l IH]; intros [|i] [|j]; cbn; try reflexivity.
  - destruct (i =? j); reflexivity.
  - rewrite IH. reflexivity.
Qed.

Section Data.
  Variables (a b : Q) (C : Type) (og : change) (kinds : nat -> kind).
  Hypothesis Ha : (0 < a)%Q.
  Let Ha0 : ~ (a == 0)%Q.
  Proof. lra. Qed.
  Let Hw := inv_pos a Ha.
  Notation TT := (same_time a b).
  Notation LTT := (same_times a b).
  Notation LW := (same_freqs a).
  Notation PH := (same_phases (ch_phases og)).
  Notation AM := (same_amps (ch_amps og)).
  Notation CA := (amp_unit og).
  Notation SV := (same_value (C := C) a b og kinds).
  Notation SD := (same_dict (C := C) a b og kinds).
  Notation SH := (same_heap (C := C) a b og kinds).

  Definition MR {A A'} (R : A -> A' -> Prop) (m : M C A) (m' : M C A') : Prop := forall h h', SH h h' ->
    SH (fst (m h)) (fst (m' h')) /\ LG R (snd (m h)) (snd (m' h')).
  Lemma mrb {A A' B B'} (R : A -> A' -> Prop) (S : B -> B' -> Prop) m m' f f' :
    MR R m m' -> (forall x x', R x x' -> MR S (f x) (f' x')) -> MR S (mbind C m f) (mbind C m' f').
  Proof.
    intros H K h h' Hh. specialize (H h h' Hh). unfold mbind. destruct (m h) as [h1 [w r]], (m' h') as [h1' [w' r']].
    cbn [fst snd] in *. destruct H as (H1 & H2 & H3). cbn [fst snd] in H2, H3. subst w'. destruct H3 as [x x' H|e e' H].
    - specialize (K x x' H h1 h1' H1). destruct (f x h1) as [h2 [v y]], (f' x' h1') as [h2' [v' y']]. cbn [fst snd] in *.
      destruct K as (K1 & K2 & K3). cbn in *. subst v'. split; [exact K1|]. split; [reflexivity|exact K3].
    - split; [exact H1|]. split; [reflexivity|]. cbn. constructor. exact H.
  Qed.
  Lemma mr_log {A A'} (R : A -> A' -> Prop) m m' : LG R m m' -> MR R (mlog C m) (mlog C m').
  Proof. intros H h h' Hh. split; [exact Hh|exact H]. Qed.
  Lemma mr_lift {A A'} (R : A -> A' -> Prop) m m' : same_res R m m' -> MR R (mlift C m) (mlift C m').
  Proof. intros H h h' Hh. split; [exact Hh|apply lg_lift; exact H]. Qed.
  Lemma mr_ret {A A'} (R : A -> A' -> Prop) x x' : R x x' -> MR R (mret C x) (mret C x').
  Proof. intros H h h' Hh. split; [exact Hh|apply lg_ret; exact H]. Qed.
  Lemma mr_read {A A'} (R : A -> A' -> Prop) f f' : (forall h h', SH h h' -> same_res R (f h) (f' h')) -> MR R (mread C f) (mread C f').
  Proof. intros H h h' Hh. split; [exact Hh|apply lg_lift; apply H; exact Hh]. Qed.

  (** ** Dictionaries *)
  Lemma sd_lookup d d' k : SD d d' -> same_option (SV k) (slookup d k) (slookup d' k).
  Proof.
    unfold slookup. induction 1 as [|[k1 v] [k1' v'] d d' [H1 H2] H IH]; cbn; [constructor|]. cbn in H1, H2. subst k1'.
    destruct (String.eqb_spec k k1) as [->|]; [constructor; exact H2|exact IH].
  Qed.
  Lemma sd_mem d d' k : SD d d' -> smem d' k = smem d k.
  Proof. intros H. unfold smem, dmem. pose proof (sd_lookup d d' k H) as K. unfold slookup in K. destruct K; reflexivity. Qed.
  Lemma sd_get d d' k : SD d d' -> same_res (SV k) (sget d k) (sget d' k).
  Proof. intros H. unfold sget, dget. pose proof (sd_lookup d d' k H) as K. unfold slookup in K. destruct K; [rerr|constructor; assumption]. Qed.
  Lemma sd_set d d' k v v' : SD d d' -> SV k v v' -> SD (sset d k v) (sset d' k v').
  Proof.
    intros H Hv. unfold sset. induction H as [|[k1 u] [k1' u'] d d' [H1 H2] H IH]; cbn; [repeat constructor; exact Hv|]. cbn in H1, H2. subst k1'.
    destruct (String.eqb_spec k k1) as [->|]; constructor; try split; auto.
  Qed.
  Lemma sd_pop d d' k : SD d d' -> SD (spop d k) (spop d' k).
  Proof.
    intros H. unfold spop. induction H as [|[k1 u] [k1' u'] d d' [H1 H2] H IH]; cbn; [constructor|]. cbn in H1, H2. subst k1'.
    destruct (String.eqb k k1); [exact H|]. constructor; [split; [reflexivity|exact H2]|exact IH].
  Qed.
  Lemma sd_update e e' : SD e e' -> forall d d', SD d d' -> SD (dupdate String.eqb d e) (dupdate String.eqb d' e').
  Proof.
    induction 1 as [|[k u] [k' u'] e e' [H1 H2] H IH]; intros d d' Hd; cbn; [exact Hd|]. cbn in H1, H2. subst k'. apply IH. apply sd_set; assumption.
  Qed.
  Lemma sd_app d d' e e' : SD d d' -> SD e e' -> SD (d ++ e) (d' ++ e').
  Proof. intros H K. apply Forall2_app; assumption. Qed.
  Lemma sd_keys d d' : SD d d' -> dkeys d' = dkeys d.
  Proof. unfold dkeys. induction 1 as [|x x' d d' [H1 H2] H IH]; cbn; congruence. Qed.
  Lemma sd_cons k v v' d d' : SV k v v' -> SD d d' -> SD ((k, v) :: d) ((k, v') :: d').
  Proof. intros H K. constructor; [split; [reflexivity|exact H]|exact K]. Qed.
  Lemma sd_nil : SD [] [].
  Proof. constructor. Qed.

  (** ** Modes *)
  Definition RM (k : string) : mdict (list Q) -> mdict (list Q) -> Prop :=
    match kind_of k with Frequencies => same_modes LW | Phases => same_modes PH | Amplitudes => same_modes AM | OtherKind => eq end.
  Lemma am_refl l : ch_amps og = None -> AM l l.
  Proof. intros ->. reflexivity. Qed.
  Lemma amps_T l l' : AM l l' -> same_times CA 0 l l'.
  Proof.
    unfold amp_unit, same_times. destruct (ch_amps og); cbn; [|intros ->; induction l; constructor; [unfold same_time; ring|assumption]].
    induction 1; constructor; [|assumption]. unfold same_time. rewrite H. ring.
  Qed.
  Lemma am_same (d d' : mdict (list Q)) : ch_amps og = None -> same_modes AM d d' -> d = d'.
  Proof. intros -> H. induction H as [|[k v] [k' v'] d d' [H1 H2] H IH]; [reflexivity|]. cbn in *. subst. reflexivity. Qed.
  Lemma am_half u u' v v' : AM u u' -> AM v v' ->
    same_res AM (zip_with (fun x y => (1 # 2) * (x + y))%Q u v) (zip_with (fun x y => (1 # 2) * (x + y))%Q u' v').
  Proof.
    destruct (ch_amps og) as [c|]; cbn; [|intros -> ->; destruct (zip_with _ u v); [constructor; reflexivity|rerr]]. intros Hu Hv. unfold zip_with.
    rewrite (f2_length _ _ _ Hu), (f2_length _ _ _ Hv). destruct (length u =? length v); [|rerr]. constructor.
    eapply f2_map2; [|exact Hu|exact Hv]. intros x x' y y' Hx Hy. cbn in *. rewrite Hx, Hy. ring.
  Qed.
  Lemma am_firstn n l l' : AM l l' -> AM (firstn n l) (firstn n l').
  Proof. destruct (ch_amps og); cbn; [|intros ->; reflexivity]. apply f2_firstn. Qed.
  Lemma ph_refl l : PH l l.
  Proof. destruct (ch_phases og); cbn; [|reflexivity]. exists 0%Q. induction l; constructor; [ring|assumption]. Qed.
  Lemma ph_same (d d' : mdict (list Q)) : ch_phases og = false -> same_modes PH d d' -> d = d'.
  Proof. intros -> H. induction H as [|[k v] [k' v'] d d' [H1 H2] H IH]; [reflexivity|]. cbn in *. subst. reflexivity. Qed.
  Lemma r_real k v v' h h' : SH h h' -> SV k v v' -> same_res (RM k) (real_of C h v) (real_of C h' v').
  Proof.
    intros Hh H. unfold RM. destruct v as [l|d|d|p|], v' as [l'|d'|d'|p'|]; cbn in H |- *; try contradiction; try rerr.
    - destruct (kind_of k); constructor; auto.
    - destruct H as [-> H]. pose proof (Hh p) as G. destruct G as [|o o' G]; [rerr|]. rewrite H in G.
      destruct o, o'; cbn in G; try contradiction; try rerr. destruct (kind_of k); constructor; auto.
  Qed.
  Lemma r_cplx k v v' h h' : SH h h' -> SV k v v' -> same_res (fun x x' => x = x' /\ ch_amps og = None) (cplx_of C h v) (cplx_of C h' v').
  Proof.
    intros Hh H. destruct v as [l|d|d|p|], v' as [l'|d'|d'|p'|]; cbn in H |- *; try contradiction; try rerr.
    - constructor. destruct H as [-> H]. auto.
    - destruct H as [-> H]. pose proof (Hh p) as G. destruct G as [|o o' G]; [rerr|].
      destruct o, o'; cbn in G; try contradiction; try rerr. constructor. destruct G as [-> G]. auto.
  Qed.
  Lemma r_t v v' : SV "t" v v' -> same_res (same_clock a b) (arr_of C v) (arr_of C v').
  Proof. intros H. destruct v, v'; cbn in H |- *; try contradiction; try rerr. constructor. exact H. Qed.
  Lemma r_tz v v' : SV "t_zeroecc" v v' -> same_res (fun l l' => exists b0, same_clock a b0 l l') (arr_of C v) (arr_of C v').
  Proof. intros H. destruct v, v'; cbn in H |- *; try contradiction; try rerr. constructor. exact H. Qed.
  Lemma modes_refl {A} (R : A -> A -> Prop) d : (forall x, R x x) -> same_modes R d d.
  Proof. intros H. unfold same_modes. induction d; constructor; auto. Qed.
  Lemma r_mget {A A'} (R : A -> A' -> Prop) d d' m : same_modes R d d' -> same_res R (mget d m) (mget d' m).
  Proof.
    unfold mget, dget. induction 1 as [|[k v] [k' v'] d d' [H1 H2] H IH]; cbn; [rerr|]. cbn in H1, H2. subst k'.
    destruct (mode_eqb m k); [constructor; exact H2|exact IH].
  Qed.

  Variable cabs : C -> list Q.
  Variable cphase : C -> list Q.
  Variable cpolar : list Q -> list Q -> res C.
  Variable rotate : list Q -> list C -> res (list C).
  Variable qsqrt : Q -> Q.

  Definition tagged (s : string) := s = "" \/ s = "_zeroecc".
  Lemma kind_amp s : tagged s -> kind_of ("amplm" ++ s) = Amplitudes.
  Proof. intros [-> | ->]; reflexivity. Qed.
  Lemma r_amplm h h' d d' s : tagged s -> SH h h' -> SD d d' -> same_res (same_modes AM) (amplm_for C cabs h d s) (amplm_for C cabs h' d' s).
  Proof.
    intros Hs Hh Hd. unfold amplm_for. destruct (sd_lookup d d' ("amplm" ++ s) Hd) as [|v v' Hv].
    - destruct (sd_lookup d d' ("hlm" ++ s) Hd) as [|v v' Hv]; [destruct (String.eqb s ""); [rerr|constructor; constructor]|].
      eapply rb; [eapply r_cplx; eassumption|]. intros x x' [<- N]. constructor. apply modes_refl. intros l. apply am_refl. exact N.
    - pose proof (r_real ("amplm" ++ s) v v' h h' Hh Hv) as R. unfold RM in R. rewrite (kind_amp s Hs) in R. exact R.
  Qed.
  Lemma kind_phase s : tagged s -> kind_of ("phaselm" ++ s) = Phases.
  Proof. intros [-> | ->]; reflexivity. Qed.
  Lemma r_phaselm h h' d d' s : tagged s -> SH h h' -> SD d d' -> same_res (same_modes PH) (phaselm_for C cphase h d s) (phaselm_for C cphase h' d' s).
  Proof.
    intros Hs Hh Hd. unfold phaselm_for. destruct (sd_lookup d d' ("phaselm" ++ s) Hd) as [|v v' Hv].
    - destruct (sd_lookup d d' ("hlm" ++ s) Hd) as [|v v' Hv]; [destruct (String.eqb s ""); [rerr|constructor; constructor]|].
      eapply rb; [eapply r_cplx; eassumption|]. intros x x' [<- _]. constructor. apply modes_refl. exact ph_refl.
    - pose proof (r_real ("phaselm" ++ s) v v' h h' Hh Hv) as R. unfold RM in R. rewrite (kind_phase s Hs) in R. exact R.
  Qed.
  Lemma r_get_amplm h h' d d' : SH h h' -> SD d d' -> same_res SD (get_amplm_from_dataDict C cabs h d) (get_amplm_from_dataDict C cabs h' d').
  Proof.
    intros Hh Hd. unfold get_amplm_from_dataDict. eapply rb; [apply r_amplm; [left; reflexivity|eassumption|eassumption]|]. intros x x' Hx.
    eapply rb; [apply r_amplm; [right; reflexivity|eassumption|eassumption]|]. intros z z' Hz. constructor. apply sd_cons; [exact Hx|].
    destruct Hz as [|y y' z z' Hy Hz]; [apply sd_nil|apply sd_cons; [exact (Forall2_cons _ _ Hy Hz)|apply sd_nil]].
  Qed.
  Lemma r_get_phaselm h h' d d' : SH h h' -> SD d d' -> same_res SD (get_phaselm_from_dataDict C cphase h d) (get_phaselm_from_dataDict C cphase h' d').
  Proof.
    intros Hh Hd. unfold get_phaselm_from_dataDict. eapply rb; [apply r_phaselm; [left; reflexivity|eassumption|eassumption]|]. intros x x' Hx.
    eapply rb; [apply r_phaselm; [right; reflexivity|eassumption|eassumption]|]. intros z z' Hz. constructor. apply sd_cons; [exact Hx|].
    destruct Hz as [|y y' z z' Hy Hz]; [apply sd_nil|apply sd_cons; [exact (Forall2_cons _ _ Hy Hz)|apply sd_nil]].
  Qed.
  Lemma r_omegalm b0 t t' ph ph' : same_times a b0 t t' -> same_modes PH ph ph' ->
    same_res (same_modes LW) (get_omegalm_from_phaselm t ph) (get_omegalm_from_phaselm t' ph').
  Proof.
    intros H Hp. unfold get_omegalm_from_phaselm.
    assert (G : forall t1 t1' t0 t0', same_time a b0 t1 t1' -> same_time a b0 t0 t0' ->
      same_res (same_modes LW) (map_modes (fun y => time_deriv_4thOrder y (t1 - t0)) ph) (map_modes (fun y => time_deriv_4thOrder y (t1' - t0')) ph')).
    { intros t1 t1' t0 t0' H1 H0. pose proof (T_minus _ _ _ _ _ _ H1 H0) as Hd.
      induction Hp as [|[k y] [k' y'] ph ph' [Hk Hy] Hp IH]; cbn; [constructor; constructor|]. cbn in Hk, Hy. subst k'. apply phases_T in Hy. destruct Hy as [c Hy].
      eapply rb; [apply (t_deriv1 a c); [exact Ha|exact Hy|exact Hd]|]. intros u u' Hu. eapply rb; [exact IH|]. intros v v' Hv.
      constructor. constructor; [|exact Hv]. split; [reflexivity|]. cbn. apply freqs_T; assumption. }
    destruct Hp as [|x x' ph ph' Hx Hp]; [constructor; constructor|].
    eapply rb; [apply f2_get; exact H|]. intros t1 t1' H1. eapply rb; [apply f2_get; exact H|]. intros t0 t0' H0. apply G; assumption.
  Qed.
  Lemma r_apo h h' d d' : SH h h' -> SD d d' -> same_res SD (get_amp_phase_omega_data C cabs cphase h d) (get_amp_phase_omega_data C cabs cphase h' d').
  Proof.
    intros Hh Hd. unfold get_amp_phase_omega_data. eapply rb; [apply r_get_amplm; eassumption|]. intros am am' Ham.
    eapply rb; [apply r_get_phaselm; eassumption|]. intros pm pm' Hpm. pose proof (sd_app _ _ _ _ Ham Hpm) as Hap. cbv zeta.
    eapply rb; [eapply rb; [apply sd_get; exact Hap|]; intros v v' Hv; exact (r_real "phaselm" v v' h h' Hh Hv)|]. intros ph ph' Hp. change (same_modes PH ph ph') in Hp.
    eapply (rb (SV "omegalm")).
    { destruct (sd_lookup d d' "omegalm" Hd) as [|v v' Hv]; [|constructor; exact Hv].
      eapply rb; [eapply rb; [apply sd_get; exact Hd|]; intros v v' Hv; apply r_t; exact Hv|]. intros t t' [Ht _].
      eapply rb; [apply (r_omegalm b); [exact Ht|exact Hp]|]. intros o o' Ho. constructor. exact Ho. }
    intros w w' Hw'. eapply (rb SD).
    { destruct (sd_lookup d d' "omegalm_zeroecc" Hd) as [|v v' Hv]; [|constructor; apply sd_cons; [exact Hv|apply sd_nil]].
      destruct (sd_lookup _ _ "phaselm_zeroecc" Hap) as [|v v' Hv]; [constructor; apply sd_nil|].
      destruct (sd_lookup d d' "t_zeroecc" Hd) as [|tv tv' Htv]; [constructor; apply sd_nil|].
      eapply rb; [exact (r_real "phaselm_zeroecc" v v' h h' Hh Hv)|]. intros x x' Hx. change (same_modes PH x x') in Hx.
      eapply rb; [apply r_tz; exact Htv|]. intros t t' (b0 & Ht & _).
      eapply rb; [apply (r_omegalm b0); [exact Ht|exact Hx]|]. intros o o' Ho. constructor. apply sd_cons; [exact Ho|apply sd_nil]. }
    intros z z' Hz. constructor. apply sd_app; [exact Hap|]. apply sd_cons; assumption.
  Qed.
  Lemma sd_deepcopy h h' d d' : SH h h' -> SD d d' -> SD (deepcopy C h d) (deepcopy C h' d').
  Proof.
    intros Hh. unfold deepcopy, same_dict. intros H. eapply f2_map; [|exact H]. intros [k v] [k' v'] [E Hv]. cbn in E, Hv. subst k'. split; [reflexivity|].
    cbn [fst snd]. destruct v as [l|m|m|p|], v' as [l'|m'|m'|p'|]; cbn in Hv |- *; try contradiction; try exact Hv.
    destruct Hv as [-> Hp]. pose proof (Hh p) as G. destruct G as [|o o' G]; [exact I|]. rewrite Hp in G.
    destruct o, o'; cbn in G |- *; try contradiction; auto.
  Qed.
  Lemma r_copr h h' d d' s : rotation_scale a rotate -> tagged s -> SH h h' -> SD d d' ->
    same_res SD (get_coprecessing_data_dict C rotate h d s) (get_coprecessing_data_dict C rotate h' d' s).
  Proof.
    intros Hrot Hs Hh Hd. unfold get_coprecessing_data_dict.
    eapply rb; [eapply rb; [apply sd_get; exact Hd|]; intros v v' Hv; eapply r_cplx; eassumption|]. intros m m' [<- Nm].
    eapply rb; [apply res_refl|]. intros cols cols' <-.
    eapply (rb (fun t t' => exists b0, same_times a b0 t t')).
    { eapply rb; [apply sd_get; exact Hd|]. intros v v' Hv. destruct Hs as [-> | ->].
      - eapply rmono; [|apply r_t; exact Hv]. intros t t' [Ht _]. exists b. exact Ht.
      - eapply rmono; [|apply r_tz; exact Hv]. intros t t' (b0 & Ht & _). exists b0. exact Ht. }
    intros t t' [b0 Ht]. rewrite (Hrot b0 t t' cols Ht). eapply rb; [apply res_refl|]. intros r r' <-. constructor.
    apply sd_set; [apply sd_deepcopy; assumption|]. split; [reflexivity|exact Nm].
  Qed.
  Definition one_tag (h : heap C) (x y : sdict (dval C)) (tag : string) : res (string * dval C) :=
    do av <- sget x ("amplm" ++ tag); do am <- real_of C h av;
    match am with
    | [] => Ok ("hlm" ++ tag, VCplx C [])%string
    | _ => do pv <- sget y ("phaselm" ++ tag); do pm <- real_of C h pv;
           do m <- polar_modes C cpolar am pm; Ok ("hlm" ++ tag, VCplx C m)%string
    end.
  Lemma r_hlm h h' x x' y y' : og = kept -> SH h h' -> SD x x' -> SD y y' ->
    same_res SD (get_hlm_from_amplm_phaselm C cpolar h x y) (get_hlm_from_amplm_phaselm C cpolar h' x' y').
  Proof.
    intros Ho Hh Hx Hy. assert (Na : ch_amps og = None) by (rewrite Ho; reflexivity). assert (Np : ch_phases og = false) by (rewrite Ho; reflexivity).
    change (same_res SD (do e <- one_tag h x y ""; if smem x "amplm_zeroecc" then do z <- one_tag h x y "_zeroecc"; Ok [e; z] else Ok [e])
      (do e <- one_tag h' x' y' ""; if smem x' "amplm_zeroecc" then do z <- one_tag h' x' y' "_zeroecc"; Ok [e; z] else Ok [e])).
    assert (G : forall s, tagged s -> same_res (fun e e' => SD [e] [e']) (one_tag h x y s) (one_tag h' x' y' s)).
    { intros s Hs. unfold one_tag. eapply rb; [apply sd_get; exact Hx|]. intros v v' Hv.
      eapply rb; [exact (r_real ("amplm" ++ s) v v' h h' Hh Hv)|]. intros m m' E. unfold RM in E. rewrite (kind_amp s Hs) in E. apply (am_same _ _ Na) in E. subst m'.
      destruct m as [|p m]; [constructor; apply sd_cons; [split; [reflexivity|exact Na]|apply sd_nil]|].
      eapply rb; [apply sd_get; exact Hy|]. intros u u' Hu.
      eapply rb; [exact (r_real ("phaselm" ++ s) u u' h h' Hh Hu)|]. intros pm pm' E. unfold RM in E. rewrite (kind_phase s Hs) in E. apply (ph_same _ _ Np) in E. subst pm'.
      eapply rb; [apply res_refl|]. intros c c' <-. constructor. apply sd_cons; [split; [reflexivity|exact Na]|apply sd_nil]. }
    eapply rb; [apply G; left; reflexivity|]. intros e e' He. rewrite (sd_mem _ _ _ Hx). destruct (smem x "amplm_zeroecc"); [|constructor; exact He].
    eapply rb; [apply G; right; reflexivity|]. intros z z' Hz. constructor. exact (sd_app [e] [e'] [z] [z'] He Hz).
  Qed.

  Definition PL (p p' : place C) : Prop :=
    match p, p' with Caller _ q, Caller _ q' => q' = q | Own _ d, Own _ d' => SD d d' | _, _ => False end.
  Lemma r_top h h' p p' : SH h h' -> PL p p' -> same_res SD (top_of C h p) (top_of C h' p').
  Proof.
    intros Hh H. destruct p as [q|d], p' as [q'|d']; cbn in H |- *; try contradiction; [subst q'|constructor; exact H].
    pose proof (Hh q) as G. destruct G as [|o o' G]; [rerr|]. destruct o, o'; cbn in G; try contradiction; try rerr. constructor. exact G.
  Qed.
  Lemma sh_set h h' q o o' : SH h h' -> same_obj a b og kinds (kinds q) o o' -> SH (set_nth h q o) (set_nth h' q o').
  Proof.
    intros Hh H p. rewrite !nth_set. destruct (Nat.eqb_spec q p) as [->|]; [|apply Hh]. destruct (Hh p); constructor. exact H.
  Qed.
  Lemma mr_update p p' e e' : PL p p' -> SD e e' -> MR PL (update_place C p e) (update_place C p' e').
  Proof.
    intros H He h h' Hh. unfold update_place. destruct p as [q|d], p' as [q'|d']; cbn in H; try contradiction.
    - subst q'. pose proof (Hh q) as G. inversion G as [E E'|o o' G' E E']; [split; [exact Hh|apply lg_lift; rerr]|].
      destruct o, o'; cbn in G'; try contradiction; try (split; [exact Hh|apply lg_lift; rerr]).
      split; [|apply lg_ret; reflexivity]. cbn [fst]. apply sh_set; [exact Hh|]. cbn. apply sd_update; assumption.
    - split; [exact Hh|]. apply lg_ret. cbn. apply sd_update; assumption.
  Qed.
  Lemma mr_transform level p p' s : og = kept -> rotation_scale a rotate -> tagged s -> PL p p' ->
    MR SD (transform_inertial_to_coprecessing C cabs cphase cpolar rotate level p s)
          (transform_inertial_to_coprecessing C cabs cphase cpolar rotate level p' s).
  Proof.
    intros Ho Hrot Hs Hp. unfold transform_inertial_to_coprecessing.
    eapply mrb; [apply mr_read; intros; eapply r_top; eassumption|]. intros d d' Hd. rewrite (sd_mem _ _ _ Hd).
    eapply (mrb SD).
    { destruct (smem d ("hlm" ++ s)); [apply mr_read; intros; apply r_copr; assumption|].
      eapply mrb; [apply mr_read; intros h h' Hh; eapply rb; [apply r_get_amplm; eassumption|]; intros x x' Hx;
        eapply rb; [apply r_get_phaselm; eassumption|]; intros y y' Hy; apply r_hlm; [exact Ho|eassumption|eassumption|eassumption]|].
      intros e e' He. eapply mrb; [apply mr_update; eassumption|]. intros p2 p2' H2.
      eapply mrb; [apply mr_read; intros; eapply r_top; eassumption|]. intros d2 d2' Hd2.
      eapply mrb; [apply mr_read; intros; apply r_copr; eassumption|]. intros d3 d3' Hd3.
      eapply mrb; [apply mr_log; apply lg_refl|]. intros _ _ _. apply mr_ret. apply sd_pop. apply sd_pop. exact Hd3. }
    intros d1 d1' Hd1. rewrite (sd_mem _ _ _ Hd1). destruct (smem d1 ("omegalm" ++ s)); [|apply mr_ret; exact Hd1].
    eapply mrb; [apply mr_log; apply lg_refl|]. intros _ _ _. apply mr_ret. apply sd_pop. exact Hd1.
  Qed.

  (** ** The waveform *)
  Lemma r_modes h h' d d' k : SH h h' -> SD d d' -> same_res (RM k) (modes_at C h d k) (modes_at C h' d' k).
  Proof. intros Hh Hd. unfold modes_at. eapply rb; [apply sd_get; exact Hd|]. intros v v' Hv. apply r_real; assumption. Qed.
  Definition GW (x x' : list Q * list Q * list Q) : Prop := AM (fst (fst x)) (fst (fst x')) /\ PH (snd (fst x)) (snd (fst x')) /\ LW (snd x) (snd x').
  Lemma ph_half u u' v v' : PH u u' -> PH v v' ->
    same_res PH (zip_with (fun x y => (1 # 2) * (x - y))%Q u v) (zip_with (fun x y => (1 # 2) * (x - y))%Q u' v').
  Proof.
    destruct (ch_phases og); cbn; [|intros -> ->; destruct (zip_with _ u v); [constructor; reflexivity|rerr]]. intros [k Hu] [j Hv]. unfold zip_with.
    rewrite (f2_length _ _ _ Hu), (f2_length _ _ _ Hv). destruct (length u =? length v); [|rerr]. constructor. exists ((1 # 2) * (k - j))%Q.
    eapply f2_map2; [|exact Hu|exact Hv]. intros x x' y y' Hx Hy. cbn in *. rewrite Hx, Hy. ring.
  Qed.
  Lemma lw_half u u' v v' : LW u u' -> LW v v' ->
    same_res LW (zip_with (fun x y => (1 # 2) * (x - y))%Q u v) (zip_with (fun x y => (1 # 2) * (x - y))%Q u' v').
  Proof.
    intros Hu Hv. apply (freqs_T a _ _ Ha0) in Hu, Hv. eapply rmono; [intros x x' Hx; apply (freqs_T a _ _ Ha0); exact Hx|].
    apply f2_zip; try assumption. intros x x' y y' Hx Hy. unfold same_time in *. rewrite Hx, Hy. ring.
  Qed.
  Lemma r_mmem {A A'} (R : A -> A' -> Prop) d d' m : same_modes R d d' -> mmem d' m = mmem d m.
  Proof.
    unfold mmem, dmem. induction 1 as [|[k v] [k' v'] d d' [H1 H2] H IH]; cbn; [reflexivity|]. cbn in H1. subst k'. destruct (mode_eqb m k); [reflexivity|exact IH].
  Qed.
  Lemma r_gw h h' d d' prec s : tagged s -> SH h h' -> SD d d' ->
    same_res GW (get_amp_phase_omega_gw C h prec d s) (get_amp_phase_omega_gw C h' prec d' s).
  Proof.
    intros Hs Hh Hd. unfold get_amp_phase_omega_gw. assert (Q : kind_of ("omegalm" ++ s) = Frequencies) by (destruct Hs as [-> | ->]; reflexivity).
    pose proof (r_modes h h' d d' ("amplm" ++ s) Hh Hd) as R1. pose proof (r_modes h h' d d' ("phaselm" ++ s) Hh Hd) as R2.
    pose proof (r_modes h h' d d' ("omegalm" ++ s) Hh Hd) as R3. unfold RM in R2, R3. rewrite Q in R3. rewrite (kind_phase s Hs) in R2. unfold RM in R1. rewrite (kind_amp s Hs) in R1.
    destruct prec; cbn [negb].
    - eapply rb; [exact R1|]. intros am am' Ham. rewrite (r_mmem _ _ _ (2, -2)%Z Ham). destruct (negb (mmem am _)); [rerr|].
      eapply rb; [exact R2|]. intros pm pm' Hpm. rewrite (r_mmem _ _ _ (2, -2)%Z Hpm). destruct (negb (mmem pm _)); [rerr|]. cbv zeta.
      eapply rb; [apply r_mget; exact Ham|]. intros a1 a1' A1. eapply rb; [apply r_mget; exact Ham|]. intros a2 a2' A2.
      eapply rb; [apply am_half; eassumption|]. intros aa aa' Haa.
      eapply rb; [apply r_mget; exact Hpm|]. intros p1 p1' P1. eapply rb; [apply r_mget; exact Hpm|]. intros p2 p2' P2.
      eapply rb; [apply ph_half; eassumption|]. intros ph ph' Hph.
      eapply rb; [exact R3|]. intros om om' Hom. eapply rb; [apply r_mget; exact Hom|]. intros o1 o1' H1.
      eapply rb; [apply r_mget; exact Hom|]. intros o2 o2' H2. eapply rb; [apply lw_half; eassumption|]. intros o3 o3' Ho. constructor. split; [exact Haa|split; assumption].
    - eapply rb; [exact R1|]. intros am am' Ham. eapply rb; [apply r_mget; exact Ham|]. intros aa aa' Haa.
      eapply rb; [exact R2|]. intros pm pm' Hpm. eapply rb; [apply r_mget; exact Hpm|]. intros ph ph' Hph.
      eapply rb; [exact R3|]. intros om om' Hom. eapply rb; [apply r_mget; exact Hom|]. intros o3 o3' Ho. constructor. split; [exact Haa|split; assumption].
  Qed.
  Lemma r_index k ph ph' pm pm' n : same_times 1 k ph ph' -> same_time 1 k pm pm' -> same_res eq (index_before_merger ph pm n) (index_before_merger ph' pm' n).
  Proof.
    intros H Hm. unfold index_before_merger. cbv zeta. assert (H01 : (0 < 1)%Q) by reflexivity.
    assert (Ht : same_time 1 k (pm - 4 * np_pi * n) (pm' - 4 * np_pi * n)) by (unfold same_time in *; rewrite Hm; ring).
    eapply rb; [apply f2_get; exact H|]. intros p0 p0' H0. rewrite (T_lt 1 k _ _ _ _ H01 Ht H0). destruct (Qlt_bool _ p0); [rerr|].
    rewrite (t_nearest 1 k ph ph' _ _ H01 H Ht). apply res_refl.
  Qed.
  Lemma r_width k t t' ph ph' pm pm' : LTT t t' -> same_times 1 k ph ph' -> same_time 1 k pm pm' ->
    same_res eq (width_from_phase t ph pm) (width_from_phase t' ph' pm').
  Proof.
    intros H Hp Hm. unfold width_from_phase. eapply rb; [apply (r_index k); assumption|]. intros i2 ? <-. eapply rb; [apply f2_get; exact H|]. intros t2 t2' H2.
    eapply rb; [apply (r_index k); assumption|]. intros i1 ? <-. eapply rb; [apply f2_get; exact H|]. intros t1 t1' H1.
    eapply rb; [apply f2_get; exact H|]. intros u1 u1' K1. eapply rb; [apply f2_get; exact H|]. intros u0 u0' K0.
    pose proof (T_minus _ _ _ _ _ _ K1 K0) as D. pose proof (T_minus _ _ _ _ _ _ H1 H2) as N. rewrite (T_eq0 a _ _ Ha D).
    destruct (Qeq_bool (u1 - u0) 0) eqn:E; [rerr|]. assert (G : ~ (u1 - u0 == 0)%Q) by (intro G; apply Qeq_bool_iff in G; congruence).
    constructor. apply q_int_comp. unfold same_time in D, N. rewrite D, N. field. split; assumption.
  Qed.
  Record FR (f f' : full C) : Prop := {
    fr_dict : SD (f_dict C f) (f_dict C f'); fr_t : same_clock a b (f_t C f) (f_t C f'); fr_tm : TT (f_t_merger C f) (f_t_merger C f');
    fr_phase : exists k, same_times 1 k (f_phase C f) (f_phase C f') /\ same_time 1 k (f_phase_merger C f) (f_phase_merger C f');
    fr_amp : same_time CA 0 (f_amp_merger C f) (f_amp_merger C f'); fr_rest : f_width C f' = f_width C f }.
  (** The amplitude of all modes together. *)
  Definition roots_scale : Prop := match ch_amps og with Some k => (0 < k)%Q /\ root_scale (k * k) qsqrt | None => True end.
  Lemma r_squares c l l' : Forall2 (fun y y' => y' == c * y)%Q l l' -> Forall2 (fun y y' => y' == c * c * y)%Q (map (fun y => y * y)%Q l) (map (fun y => y * y)%Q l').
  Proof. intros H. eapply f2_map; [|exact H]. intros x x' Hx. cbn in *. rewrite Hx. ring. Qed.
  Lemma r_sum c d d' : same_modes (fun l l' => Forall2 (fun y y' => y' == c * y)%Q l l') d d' -> forall acc acc', Forall2 (fun y y' => y' == c * c * y)%Q acc acc' ->
    same_res (Forall2 (fun y y' => y' == c * c * y)%Q) (sum_squares C cabs "amplm" acc (real_modes C d)) (sum_squares C cabs "amplm" acc' (real_modes C d')).
  Proof.
    induction 1 as [|[k v] [k' v'] d d' [H1 H2] H IH]; intros acc acc' Ha'; cbn; [constructor; exact Ha'|]. cbn in H2. apply r_squares in H2.
    eapply (rb (Forall2 (fun y y' => y' == c * c * y)%Q)); [|intros x x' Hx; apply IH; exact Hx]. unfold zip_with. rewrite (f2_length _ _ _ Ha'), (f2_length _ _ _ H2).
    destruct (length acc =? _); [|rerr]. constructor. eapply f2_map2; [|exact Ha'|exact H2]. intros x x' y y' Hx Hy. cbn in *. rewrite Hx, Hy. ring.
  Qed.
  Lemma r_total d d' : roots_scale -> same_modes AM d d' -> exists r, (0 < r)%Q /\
    same_res (same_times r 0) (amplitude_using_all_modes C cabs qsqrt "amplm" (real_modes C d)) (amplitude_using_all_modes C cabs qsqrt "amplm" (real_modes C d')).
  Proof.
    unfold roots_scale. destruct (ch_amps og) as [c|] eqn:E.
    - intros (Hc & r & Hr & HR) H. exists r. split; [exact Hr|]. destruct H as [|[k v] [k' v'] d d' [H1 H2] H]; cbn; [rerr|]. cbn in H2. 
      eapply rb; [apply (r_sum c); [exact H|apply r_squares; exact H2]|]. intros x x' Hx. constructor. eapply f2_map; [|exact Hx].
      intros y y' Hy. unfold same_time. rewrite (HR _ _ Hy). ring.
    - intros _ H. apply (am_same _ _ E) in H || (rewrite <- E in H; apply (am_same _ _ E) in H). subst d'. exists 1%Q. split; [reflexivity|].
      destruct (amplitude_using_all_modes _ _ _ _ _); [constructor|rerr]. apply f2_refl. intros x. unfold same_time. ring.
  Qed.
  Lemma r_representation d d' : SD d d' -> same_res eq (check_representation C d) (check_representation C d').
  Proof. intros H. unfold check_representation. rewrite !(sd_mem _ _ _ H). apply res_refl. Qed.
  Lemma mr_read_waveform level prec frame p : roots_scale -> prec = false \/ frame <> "inertial" \/ (og = kept /\ rotation_scale a rotate) ->
    MR FR (read_waveform C cabs cphase cpolar rotate qsqrt level prec frame p) (read_waveform C cabs cphase cpolar rotate qsqrt level prec frame p).
  Proof.
    intros Hq Hrot. unfold read_waveform. eapply mrb; [apply mr_read; intros; apply r_top; [assumption|reflexivity]|]. intros d0 d0' H0.
    eapply mrb; [apply mr_lift; apply r_representation; exact H0|]. intros _ _ _.
    eapply (mrb SD).
    { destruct Hrot as [-> | [Hf | [Ho Hrot]]]; [apply mr_ret; exact H0|apply String.eqb_neq in Hf; rewrite Hf, andb_false_r; apply mr_ret; exact H0|].
      destruct (prec && String.eqb frame "inertial"); [|apply mr_ret; exact H0]. eapply mrb; [apply mr_log; apply lg_refl|]. intros _ _ _.
      eapply mrb; [apply mr_transform; [exact Ho|exact Hrot|left; reflexivity|reflexivity]|]. intros d1 d1' H1. rewrite !(sd_mem _ _ _ H1).
      destruct (smem d1 "hlm_zeroecc" || smem d1 "amplm_zeroecc"); [|apply mr_ret; exact H1]. apply mr_transform; [exact Ho|exact Hrot|right; reflexivity|exact H1]. }
    intros d d' Hd. eapply (mrb (same_clock a b)).
    { apply mr_lift. destruct (sd_lookup d d' "t" Hd) as [|v v' Hv]; [rerr|]. apply r_t. exact Hv. }
    intros t t' Ht. eapply mrb; [apply mr_read; intros; apply r_apo; eassumption|]. intros apo apo' Hapo. cbv zeta.
    assert (Hnd : SD (("t", VArr C t) :: match slookup d "t_zeroecc" with Some v => [("t_zeroecc", v)] | None => [] end ++ apo)
                     (("t", VArr C t') :: match slookup d' "t_zeroecc" with Some v => [("t_zeroecc", v)] | None => [] end ++ apo')).
    { apply sd_cons; [exact Ht|]. apply sd_app; [|exact Hapo]. destruct (sd_lookup d d' "t_zeroecc" Hd) as [|v v' Hv]; [apply sd_nil|apply sd_cons; [exact Hv|apply sd_nil]]. }
    set (nd := ("t", VArr C t) :: _) in *. set (nd' := ("t", VArr C t') :: _) in *. clearbody nd nd'. destruct Ht as [Ht Ht2].
    apply mr_read. intros h h' Hh. eapply rb; [exact (r_modes h h' nd nd' "amplm" Hh Hnd)|]. intros am am' Ham. change (same_modes AM am am') in Ham.
    destruct (r_total am am' Hq Ham) as (r & Hr & Rt). eapply rb; [exact Rt|]. intros amp amp' Hamp. eapply rb; [apply (r_peak a b r); assumption|]. intros tm tm' [Htm _].
    rewrite (t_nearest a b t t' (fst tm) (fst tm') Ha Ht Htm). eapply rb; [apply res_refl|]. intros mi ? <-.
    eapply rb; [apply r_gw; [left; reflexivity|eassumption|eassumption]|]. intros [[ga gp] go] [[ga' gp'] go'] (Hga & Hgp & Hgo). cbn in Hga, Hgp, Hgo. apply amps_T in Hga.
    apply phases_T in Hgp. destruct Hgp as [k Hgp].
    eapply rb; [apply f2_get; exact Hga|]. intros x1 x1' H1. eapply rb; [apply f2_get; exact Hgp|]. intros x2 x2' H2.
    eapply rb; [apply f2_get; exact Hgo|]. intros om om' Hom. eapply rb; [apply f2_get; exact Hgp|]. intros p0 p0' H3.
    rewrite (T_lt 1 k x2 p0 x2' p0' eq_refl H2 H3). destruct (Qlt_bool x2 p0); [rerr|]. apply (freq_T a _ _ Ha0) in Hom. rewrite (T_lt (1 / a) 0 om 0 om' 0 Hw Hom (T_zero _)).
    destruct (Qlt_bool om 0); [rerr|]. eapply rb; [apply (r_width k); eassumption|]. intros w ? <-. constructor.
    constructor; cbn; [exact Hnd|split; assumption|exact Htm|exists k; split; assumption|exact H1|reflexivity].
  Qed.
  Lemma cut_rel (R : list Q -> list Q -> Prop) n d d' : (forall l l', R l l' -> R (firstn n l) (firstn n l')) -> same_modes R d d' -> same_modes R (cut_modes n d) (cut_modes n d').
  Proof. intros HR. unfold cut_modes, same_modes. intros H. eapply f2_map; [|exact H]. intros x x' [E K]. cbn. auto. Qed.
  Lemma ph_firstn n l l' : PH l l' -> PH (firstn n l) (firstn n l').
  Proof. destruct (ch_phases og); cbn; [|intros ->; reflexivity]. intros [k H]. exists k. apply f2_firstn. exact H. Qed.
  Lemma mr_cut n d d' k : k <> "t" -> k <> "t_zeroecc" -> SD d d' -> MR SD (cut_entry C n d k) (cut_entry C n d' k).
  Proof.
    intros N1 N2 Hd h h' Hh. unfold cut_entry. pose proof (sd_get d d' k Hd) as G. inversion G as [v v' Hv E E'|e e' He E E'].
    2:{ split; [exact Hh|]. apply lg_lift. constructor. exact He. }
    destruct v as [l|m|m|p|], v' as [l'|m'|m'|p'|]; cbn in Hv; try contradiction; try (split; [exact Hh|apply lg_lift; rerr]).
    - split; [exact Hh|]. apply lg_ret. apply sd_set; [exact Hd|]. cbn. destruct (kind_of k); cbn in Hv |- *; [| | |subst; reflexivity].
      + apply cut_rel; [|exact Hv]. intros. apply f2_firstn. assumption.
      + apply cut_rel; [|exact Hv]. intros. apply ph_firstn. assumption.
      + apply cut_rel; [|exact Hv]. intros. apply am_firstn. assumption.
    - destruct Hv as [-> Hp]. pose proof (Hh p) as K. inversion K as [K1 K2|o o' K' K1 K2]; [split; [exact Hh|apply lg_lift; rerr]|].
      destruct o, o'; cbn in K'; try contradiction; try (split; [exact Hh|apply lg_lift; rerr]).
      split; [|apply lg_ret; exact Hd]. cbn [fst]. apply sh_set; [exact Hh|]. cbn. destruct (kinds p); cbn in K' |- *; [| | |subst; reflexivity].
      + apply cut_rel; [|exact K']. intros. apply f2_firstn. assumption.
      + apply cut_rel; [|exact K']. intros. apply ph_firstn. assumption.
      + apply cut_rel; [|exact K']. intros. apply am_firstn. assumption.
  Qed.
  Lemma mr_truncate n f f' : FR f f' -> MR SD (truncate C n f) (truncate C n f').
  Proof.
    intros H. destruct (fr_phase _ _ H) as (k & E3 & E4). unfold truncate. destruct n as [n|]; [|apply mr_ret; apply H].
    destruct (Qlt_bool n 0); [apply mr_lift; rerr|]. eapply mrb; [apply mr_lift; apply (r_index k); assumption|]. intros i ? <-.
    eapply mrb; [apply mr_cut; [discriminate|discriminate|apply H]|]. intros d1 d1' H1.
    eapply mrb; [apply mr_cut; [discriminate|discriminate|exact H1]|]. intros d2 d2' H2.
    eapply mrb; [apply mr_cut; [discriminate|discriminate|exact H2]|]. intros d3 d3' H3.
    apply mr_ret. apply sd_set; [exact H3|]. cbn. apply clock_firstn. apply H.
  Qed.
  Record PRR (f f' : processed C) : Prop := {
    pr_dict : SD (p_dict C f) (p_dict C f'); pr_tm : TT (p_t_merger C f) (p_t_merger C f');
    pr_amp : same_time CA 0 (p_amp_merger C f) (p_amp_merger C f'); pr_width : p_width C f' = p_width C f }.
  Theorem mr_process level prec frame n p : roots_scale -> prec = false \/ frame <> "inertial" \/ (og = kept /\ rotation_scale a rotate) ->
    MR PRR (process_data_dict C cabs cphase cpolar rotate qsqrt level prec frame n p) (process_data_dict C cabs cphase cpolar rotate qsqrt level prec frame n p).
  Proof.
    intros Hq Hrot. unfold process_data_dict. eapply mrb; [apply mr_read_waveform; [exact Hq|exact Hrot]|]. intros f f' Hf. eapply mrb; [apply mr_truncate; exact Hf|]. intros d d' Hd.
    apply mr_ret. constructor; cbn; [exact Hd|apply Hf|apply Hf|apply Hf].
  Qed.
End Data.
