(** Proof that of the modes of a system that does not precess only the (2, 2) mode and the merger time matter. *)
From Verif Require Import Base BaseLemmas UtilsModel UtilsSpec UtilsLemmas ExtremaModel RationalModel MeasureModel MeasureSpec LevelLemmas
  SegmentModel SegmentSpec SegmentLemmas DataModel DataSpec DataLemmas DataLemmas2 InitModel InitSpec InitLemmas InitOptions InitSame InitKeys InitZeroecc
  ExtraSpec InitExtra FormSpec InitForm ModeSpec.
Open Scope string_scope.
Open Scope nat_scope.

(** ** frequencies of all modes *)
Lemma map_lookup {A B} (f : A -> res B) : forall (d : mdict A) s, map_modes f d = Ok s -> forall k,
  match dlookup mode_eqb d k with
  | None => dlookup mode_eqb s k = None
  | Some a => exists b, f a = Ok b /\ dlookup mode_eqb s k = Some b
  end.
Proof.
  induction d as [|[j a] d IH]; cbn [map_modes]; intros s H k; [apply Ok_inj in H; subst; reflexivity|].
  apply bind_ok in H. destruct H as (b & Eb & H). apply bind_ok in H. destruct H as (s' & Es & H). apply Ok_inj in H. subst. cbn [dlookup].
  destruct (mode_eqb k j); [exists b; auto|]. apply IH, Es.
Qed.
Lemma map_total {A B} (f : A -> res B) (d : mdict A) : (forall k a, In (k, a) d -> exists b, f a = Ok b) -> exists s, map_modes f d = Ok s.
Proof.
  induction d as [|[j a] d IH]; intros H; [exists []; reflexivity|]. destruct (H j a) as [b Hb]; [now left|].
  destruct IH as [s Hs]; [intros k x I; apply (H k x); now right|]. exists ((j, b) :: s). cbn [map_modes]. now rewrite Hb, Hs.
Qed.
Lemma lookup_in {A} (d : mdict A) k a : dlookup mode_eqb d k = Some a -> exists j, In (j, a) d.
Proof.
  induction d as [|[j x] d IH]; [discriminate|]. cbn [dlookup]. destruct (mode_eqb k j); [intros [= ->]; exists j; now left|].
  intros H. destruct (IH H) as [i Hi]. exists i. now right.
Qed.
Lemma omega_same t (ph ph2 : mdict (list Q)) n y : dlookup mode_eqb ph (2, 2)%Z = Some y -> dlookup mode_eqb ph2 (2, 2)%Z = Some y ->
  (forall k x, In (k, x) ph \/ In (k, x) ph2 -> length x = n) ->
  match get_omegalm_from_phaselm t ph, get_omegalm_from_phaselm t ph2 with
  | Ok o, Ok o2 => dlookup mode_eqb o (2, 2)%Z = dlookup mode_eqb o2 (2, 2)%Z
  | Err e, Err e' => e = e'
  | _, _ => False
  end.
Proof.
  intros A B N. unfold get_omegalm_from_phaselm. destruct ph as [|[k a] ph]; [discriminate|]. destruct ph2 as [|[k2 a2] ph2]; [discriminate|].
  destruct (get t 1) as [t1|]; [cbn [bind]|reflexivity]. destruct (get t 0) as [t0|]; [cbn [bind]|reflexivity].
  set (f := fun y => time_deriv_4thOrder y (t1 - t0)).
  assert (F : (exists e, forall x, length x = n -> f x = Err e) \/ forall x, length x = n -> exists b, f x = Ok b).
  { unfold f, time_deriv_4thOrder. destruct (n <? 5) eqn:E.
    - left. exists ValueError. intros x ->. now rewrite E.
    - destruct (Qeq_bool (t1 - t0) 0); [left; exists NonFinite; intros x ->; now rewrite E|]. right. intros x ->. rewrite E. eauto. }
  destruct F as [[e F]|F].
  - cbn [map_modes]. rewrite (F a), (F a2); [reflexivity| |]; eapply N; [right|left]; left; reflexivity.
  - destruct (map_total f ((k, a) :: ph)) as [s S]; [intros j x I; eapply F, N; left; exact I|].
    destruct (map_total f ((k2, a2) :: ph2)) as [s2 S2]; [intros j x I; eapply F, N; right; exact I|]. rewrite S, S2.
    pose proof (map_lookup _ _ _ S (2, 2)%Z) as X. pose proof (map_lookup _ _ _ S2 (2, 2)%Z) as Y. rewrite A in X. rewrite B in Y.
    destruct X as (b & X1 & ->), Y as (b2 & Y1 & ->). congruence.
Qed.
Lemma sset_keys {A} (x : A) : forall (d d2 : sdict A) k, dkeys d = dkeys d2 -> forall y, dkeys (sset d k x) = dkeys (sset d2 k y).
Proof.
  unfold sset, dkeys. induction d as [|[j a] d IH]; intros [|[j2 a2] d2] k H y; try discriminate; [reflexivity|]. cbn in H. injection H as -> H. cbn [dset].
  destruct (String.eqb k j2); cbn; [now f_equal|]. f_equal. now apply IH.
Qed.

Section S.
  Context {C V : Type} (L : library C V) (p : nat) (h0 h02 : heap C).
  Notation heap := (heap C).
  Notation dval := (dval C).
  Notation abs := (lib_abs L). Notation phase := (lib_phase L).
  Notation total a := (amplitude_using_all_modes C (lib_abs L) (lib_sqrt L) "amplm" (real_modes C a)).
  Notation reading := (read_waveform C (lib_abs L) (lib_phase L) (lib_polar L) (lib_rotate L) (lib_sqrt L)).
  Definition still (h h2 : heap) : Prop := h = h0 /\ h2 = h02.
  (** two entries: nothing, or modes with the same (2, 2) mode *)
  Definition vrel (v v2 : option dval) : Prop :=
    match v, v2 with
    | None, None => True
    | Some (VReal _ m), Some (VReal _ m2) => dlookup mode_eqb m (2, 2)%Z = dlookup mode_eqb m2 (2, 2)%Z
    | _, _ => False
    end.
  Definition real_keys : list string := ["amplm"; "phaselm"; "omegalm"; "amplm_zeroecc"; "phaselm_zeroecc"; "omegalm_zeroecc"].
  Definition zpeak (d d2 : sdict dval) : Prop := smem d "amplm_zeroecc" = true ->
    exists tz m m2 amp amp2 tm k k2, slookup d "t_zeroecc" = Some (VArr C tz) /\ slookup d "amplm_zeroecc" = Some (VReal C m) /\ slookup d2 "amplm_zeroecc" = Some (VReal C m2) /\
      total m = Ok amp /\ total m2 = Ok amp2 /\ peak_time_via_quadratic_fit tz amp = Ok (tm, k) /\ peak_time_via_quadratic_fit tz amp2 = Ok (tm, k2).
  Definition nrel (d d2 : sdict dval) : Prop :=
    dkeys d = dkeys d2 /\ slookup d "t" = slookup d2 "t" /\ slookup d "t_zeroecc" = slookup d2 "t_zeroecc" /\
    (forall k, In k real_keys -> vrel (slookup d k) (slookup d2 k)) /\ zpeak d d2.
  Definition frel (f f2 : full C) : Prop :=
    nrel (f_dict C f) (f_dict C f2) /\ f_t C f = f_t C f2 /\ f_t_merger C f = f_t_merger C f2 /\ f_amp_merger C f = f_amp_merger C f2 /\
    f_width C f = f_width C f2 /\ f_phase C f = f_phase C f2 /\ f_phase_merger C f = f_phase_merger C f2.

  (** ** what is read *)
  Lemma gives_ampl h d t a ph : gives L h d t a ph -> amplm_for C abs h d t = Ok a /\ phaselm_for C phase h d t = Ok ph.
  Proof.
    intros [(A & B & _)|(m & A & -> & ->)]; [|now apply complex_ampl]. apply real_read in A, B. destruct A as (v & A & A2), B as (u & B & B2).
    unfold amplm_for, phaselm_for. now rewrite A, B, A2, B2.
  Qed.
  Lemma gives_keys h d t a ph : gives L h d t a ph ->
    smem d ("hlm" ++ t) && (smem d ("amplm" ++ t) || smem d ("phaselm" ++ t)) = false /\
    negb (smem d ("hlm" ++ t)) && (negb (smem d ("amplm" ++ t)) || negb (smem d ("phaselm" ++ t))) = false.
  Proof.
    intros [(A & B & N)|(m & A & _)].
    - apply real_read in A, B. destruct A as (v & A & _), B as (u & B & _). rewrite !smem_lookup, A, B, (no_key _ _ N). auto.
    - apply complex_keys in A. destruct A as (-> & -> & ->). auto.
  Qed.
  Definition counterpart (h : heap) (d : sdict dval) (z : option (mdict (list Q) * mdict (list Q))) : Prop :=
    match z with None => no_counterpart d | Some (a, ph) => gives L h d "_zeroecc" a ph end.
  Lemma check_ok h d a ph z : gives L h d "" a ph -> counterpart h d z -> check_representation C d = Ok tt.
  Proof.
    intros A Z. apply gives_keys in A. cbn [String.append] in A. destruct A as [A1 A2]. unfold check_representation. rewrite A1, A2.
    destruct z as [[za zp]|]; cbn in Z.
    - apply gives_keys in Z. cbn [String.append] in Z. now rewrite (proj1 Z).
    - destruct Z as (Z & _ & _). now rewrite (smem_lookup d "hlm_zeroecc"), (no_key _ _ Z).
  Qed.
  Definition omega_z (z : option (mdict (list Q) * mdict (list Q))) (tz : option dval) : res (sdict dval) :=
    match z with
    | Some (_, ph) => match tz with Some tv => do t <- arr_of C tv; do o <- get_omegalm_from_phaselm t ph; Ok [("omegalm_zeroecc", VReal C o)] | None => Ok [] end
    | None => Ok []
    end.
  Definition entries (a ph o : mdict (list Q)) (z : option (mdict (list Q) * mdict (list Q))) (oz : sdict dval) : sdict dval :=
    ((("amplm", VReal C a) :: match z with None => [] | Some (x, _) => [("amplm_zeroecc", VReal C x)] end) ++
     (("phaselm", VReal C ph) :: match z with None => [] | Some (_, y) => [("phaselm_zeroecc", VReal C y)] end) ++ ("omegalm", VReal C o) :: oz)%list.
  Lemma apo_value h d t a ph z : slookup d "t" = Some (VArr C t) -> no_omega d -> gives L h d "" a ph -> counterpart h d z ->
    match z with None => True | Some (x, y) => x <> [] /\ y <> [] end ->
    get_amp_phase_omega_data C abs phase h d =
      (do o <- get_omegalm_from_phaselm t ph; do oz <- omega_z z (slookup d "t_zeroecc"); Ok (entries a ph o z oz)).
  Proof.
    intros T [N1 N2] A Z NE. unfold get_amp_phase_omega_data, get_amplm_from_dataDict, get_phaselm_from_dataDict.
    destruct (gives_ampl _ _ _ _ _ A) as [-> ->]. rewrite (no_key _ _ N1), (no_key _ _ N2).
    assert (E : amplm_for C abs h d "_zeroecc" = Ok (match z with None => [] | Some (x, _) => x end) /\
                phaselm_for C phase h d "_zeroecc" = Ok (match z with None => [] | Some (_, y) => y end)).
    { destruct z as [[x y]|]; [now apply gives_ampl|]. destruct Z as (Z1 & Z2 & Z3). unfold amplm_for, phaselm_for. cbn [String.append].
      now rewrite (no_key _ _ Z1), (no_key _ _ Z2), (no_key _ _ Z3). }
    destruct E as [-> ->]. cbn [bind]. cbv zeta.
    assert (G : sget (("amplm", VReal C a) :: match match z with None => [] | Some (x, _) => x end with [] => [] | _ => [("amplm_zeroecc", VReal C match z with None => [] | Some (x, _) => x end)] end ++
        ("phaselm", VReal C ph) :: match match z with None => [] | Some (_, y) => y end with [] => [] | _ => [("phaselm_zeroecc", VReal C match z with None => [] | Some (_, y) => y end)] end)%list "phaselm" = Ok (VReal C ph)).
    { destruct z as [[[|x0 x] [|y0 y]]|]; reflexivity. }
    cbn [app]. rewrite G. cbn [bind real_of]. rewrite (sget_lookup d), T. cbn [bind arr_of].
    destruct (get_omegalm_from_phaselm t ph) as [o|]; [cbn [bind]|reflexivity].
    destruct z as [[x y]|]; [|reflexivity]. destruct NE as [NX NY]. destruct x as [|x0 x]; [congruence|]. destruct y as [|y0 y]; [congruence|]. cbn [omega_z].
    match goal with |- context [slookup ?u "phaselm_zeroecc"] => change (slookup u "phaselm_zeroecc") with (Some (VReal C (y0 :: y))) end.
    destruct (slookup d "t_zeroecc") as [tv|]; [|reflexivity]. cbn [real_of bind]. destruct (arr_of C tv) as [tz|]; [cbn [bind]|reflexivity].
    destruct (get_omegalm_from_phaselm tz (y0 :: y)); [cbn [bind]|reflexivity]. reflexivity.
  Qed.
  Definition nd (t : list Q) (tz : option dval) (apo : sdict dval) : sdict dval :=
    (("t", VArr C t) :: match tz with Some v => [("t_zeroecc", v)] | None => [] end ++ apo)%list.
  (** the rest of reading, after the new dictionary has been made *)
  Definition rest (t : list Q) (d : sdict dval) (h : heap) : res (full C) :=
    do amplm <- modes_at C h d "amplm";
    do amp <- amplitude_using_all_modes C (lib_abs L) (lib_sqrt L) "amplm" (real_modes C amplm);
    do tm <- peak_time_via_quadratic_fit t amp;
    let t_merger := fst tm in
    do mi <- argmin (map (fun x => Qabs (x - t_merger)) t);
    do gw <- get_amp_phase_omega_gw C h false d "";
    let '(amp_gw, phase_gw, omega_gw) := gw in
    do am <- get amp_gw mi;
    do pm <- get phase_gw mi;
    do om <- get omega_gw mi;
    do p0 <- get phase_gw 0;
    if Qlt_bool pm p0 then Err GenericException
    else if Qlt_bool om 0 then Err GenericException
    else
      do width <- width_from_phase t phase_gw pm;
      Ok {| f_dict := d; f_t := t; f_t_merger := t_merger; f_amp_merger := am; f_width := width; f_phase := phase_gw;
            f_phase_merger := pm |}.
  Lemma vrel_gw h h2 d d2 t : (forall k, In k real_keys -> vrel (slookup d k) (slookup d2 k)) -> tag t ->
    get_amp_phase_omega_gw C h false d t = get_amp_phase_omega_gw C h2 false d2 t.
  Proof.
    intros R T. unfold get_amp_phase_omega_gw. cbn [negb].
    assert (X : forall k, In k real_keys -> (do m <- modes_at C h d k; mget m (2, 2)%Z) = (do m <- modes_at C h2 d2 k; mget m (2, 2)%Z) /\
              match modes_at C h d k, modes_at C h2 d2 k with Ok m, Ok m2 => mget m (2, 2)%Z = mget m2 (2, 2)%Z | Err e, Err e' => e = e' | _, _ => False end).
    { intros k K. specialize (R k K). unfold modes_at. rewrite !sget_lookup. unfold vrel in R.
      destruct (slookup d k) as [[]|], (slookup d2 k) as [[]|]; try (elim R; fail); cbn; auto. unfold mget, dget. rewrite R. auto. }
    destruct (X ("amplm" ++ t)) as [_ A]; [destruct T as [->| ->]; cbn; tauto|]. destruct (X ("phaselm" ++ t)) as [_ B]; [destruct T as [->| ->]; cbn; tauto|].
    destruct (X ("omegalm" ++ t)) as [_ D]; [destruct T as [->| ->]; cbn; tauto|].
    destruct (modes_at C h d ("amplm" ++ t)) as [u|], (modes_at C h2 d2 ("amplm" ++ t)) as [u2|]; try (elim A; fail); cbn [bind]; [rewrite A|now subst].
    destruct (mget u2 (2, 2)%Z); [cbn [bind]|reflexivity].
    destruct (modes_at C h d ("phaselm" ++ t)) as [v|], (modes_at C h2 d2 ("phaselm" ++ t)) as [v2|]; try (elim B; fail); cbn [bind]; [rewrite B|now subst].
    destruct (mget v2 (2, 2)%Z); [cbn [bind]|reflexivity].
    destruct (modes_at C h d ("omegalm" ++ t)) as [w|], (modes_at C h2 d2 ("omegalm" ++ t)) as [w2|]; try (elim D; fail); cbn [bind]; [rewrite D|now subst]. reflexivity.
  Qed.
  Lemma rest_same t d d2 a a2 tm h h2 : nrel d d2 -> slookup d "amplm" = Some (VReal C a) -> slookup d2 "amplm" = Some (VReal C a2) ->
    merger_at L t a tm -> merger_at L t a2 tm ->
    match rest t d h, rest t d2 h2 with Ok f, Ok f2 => frel f f2 | Err e, Err e' => e = e' | _, _ => False end.
  Proof.
    intros R A A2 (amp & M1 & k & M2) (amp2 & M3 & k2 & M4). unfold rest.
    unfold modes_at. rewrite !sget_lookup, A, A2. cbn [bind real_of]. rewrite M1, M3. cbn [bind]. rewrite M2, M4. cbn [bind fst]. cbv zeta.
    destruct (argmin _) as [mi|]; [cbn [bind]|reflexivity].
    rewrite (vrel_gw h h2 d d2 "" (proj1 (proj2 (proj2 (proj2 R))))) by (red; auto).
    destruct (get_amp_phase_omega_gw C h2 false d2 "") as [[[x y] z]|]; [cbn [bind]|reflexivity].
    destruct (get x mi) as [am|]; [cbn [bind]|reflexivity]. destruct (get y mi) as [pm|]; [cbn [bind]|reflexivity]. destruct (get z mi) as [om|]; [cbn [bind]|reflexivity].
    destruct (get y 0) as [p0|]; [cbn [bind]|reflexivity]. destruct (Qlt_bool pm p0); [reflexivity|]. destruct (Qlt_bool om 0); [reflexivity|].
    destruct (width_from_phase t y pm); [cbn [bind]|reflexivity]. unfold frel. cbn. split; [exact R|]. repeat split.
  Qed.
  (** ** the new dictionaries agree *)
  Definition zrel (tz : option dval) (z z2 : option (mdict (list Q) * mdict (list Q))) : Prop :=
    match z, z2 with
    | None, None => True
    | Some (x, y), Some (x2, y2) => exists times, tz = Some (VArr C times) /\ dlookup mode_eqb x (2, 2)%Z = dlookup mode_eqb x2 (2, 2)%Z /\
        dlookup mode_eqb y (2, 2)%Z = dlookup mode_eqb y2 (2, 2)%Z /\ exists tm, merger_at L times x tm /\ merger_at L times x2 tm
    | _, _ => False
    end.
  Definition ozrel (oz oz2 : sdict dval) : Prop :=
    match oz, oz2 with
    | [], [] => True
    | [(k, VReal _ o)], [(k2, VReal _ o2)] => k = "omegalm_zeroecc" /\ k2 = "omegalm_zeroecc" /\ dlookup mode_eqb o (2, 2)%Z = dlookup mode_eqb o2 (2, 2)%Z
    | _, _ => False
    end.
  Lemma nd_rel t tz a ph o z oz a2 ph2 o2 z2 oz2 :
    dlookup mode_eqb a (2, 2)%Z = dlookup mode_eqb a2 (2, 2)%Z -> dlookup mode_eqb ph (2, 2)%Z = dlookup mode_eqb ph2 (2, 2)%Z ->
    dlookup mode_eqb o (2, 2)%Z = dlookup mode_eqb o2 (2, 2)%Z -> zrel tz z z2 -> ozrel oz oz2 ->
    nrel (nd t tz (entries a ph o z oz)) (nd t tz (entries a2 ph2 o2 z2 oz2)).
  Proof.
    intros A B D Z OZ. destruct z as [[x y]|], z2 as [[x2 y2]|]; try (elim Z; fail).
    - destruct Z as (times & -> & Z1 & Z2 & tm & (amp & M1 & k & M2) & (amp2 & M3 & k2 & M4)).
      destruct oz as [|[k0 [ | |o0| |]] [|]], oz2 as [|[k1 [ | |o1| |]] [|]]; try (elim OZ; fail).
      + split; [reflexivity|]. split; [reflexivity|]. split; [reflexivity|]. split.
        * intros j J. repeat (destruct J as [<-|J]; [cbn; auto|]). destruct J.
        * intros _. exists times, x, x2, amp, amp2, tm, k, k2. auto 8.
      + destruct OZ as (-> & -> & O). split; [reflexivity|]. split; [reflexivity|]. split; [reflexivity|]. split.
        * intros j J. repeat (destruct J as [<-|J]; [cbn; auto|]). destruct J.
        * intros _. exists times, x, x2, amp, amp2, tm, k, k2. auto 8.
    - destruct oz as [|[k0 [ | |o0| |]] [|]], oz2 as [|[k1 [ | |o1| |]] [|]]; try (elim OZ; fail).
      + destruct tz; (split; [reflexivity|]; split; [reflexivity|]; split; [reflexivity|]; split; [|intros X; discriminate X]);
          intros j J; repeat (destruct J as [<-|J]; [cbn; auto|]); destruct J.
      + destruct OZ as (-> & -> & O). destruct tz; (split; [reflexivity|]; split; [reflexivity|]; split; [reflexivity|]; split; [|intros X; discriminate X]);
          intros j J; repeat (destruct J as [<-|J]; [cbn; auto|]); destruct J.
  Qed.
  Lemma omega_z_same tz z z2 n y : zrel tz z z2 ->
    match z, z2 with Some (_, b), Some (_, b2) => dlookup mode_eqb b (2, 2)%Z = Some y /\ dlookup mode_eqb b2 (2, 2)%Z = Some y /\
      (forall k x, In (k, x) b \/ In (k, x) b2 -> length x = n) | _, _ => True end ->
    match omega_z z tz, omega_z z2 tz with Ok oz, Ok oz2 => ozrel oz oz2 | Err e, Err e' => e = e' | _, _ => False end.
  Proof.
    intros Z H. destruct z as [[x b]|], z2 as [[x2 b2]|]; try (elim Z; fail); [|exact I]. destruct Z as (times & -> & _). destruct H as (H1 & H2 & H3).
    cbn [omega_z arr_of bind]. pose proof (omega_same times b b2 n y H1 H2 H3) as G.
    destruct (get_omegalm_from_phaselm times b), (get_omegalm_from_phaselm times b2); try (elim G; fail); cbn; auto.
  Qed.
  (** ** reading *)
  Definition readable (h : heap) (d : sdict dval) (t : list Q) (a ph : mdict (list Q)) (z : option (mdict (list Q) * mdict (list Q))) : Prop :=
    is_dict h p d /\ slookup d "t" = Some (VArr C t) /\ no_omega d /\ gives L h d "" a ph /\ counterpart h d z /\
    match z with None => True | Some (x, y) => x <> [] /\ y <> [] end.
  Lemma read_value level frame h d t a ph z : readable h d t a ph z ->
    reading level false frame p h =
      (h, ([], do o <- get_omegalm_from_phaselm t ph; do oz <- omega_z z (slookup d "t_zeroecc"); rest t (nd t (slookup d "t_zeroecc") (entries a ph o z oz)) h)).
  Proof.
    intros (A & T & N & G & Z & NE). unfold read_waveform. unfold is_dict in A.
    erewrite step; [|unfold mread; cbn [top_of]; rewrite A; reflexivity]. erewrite step; [|rewrite (check_ok _ _ _ _ _ G Z); reflexivity]. cbn [andb].
    erewrite step; [|reflexivity]. rewrite T. erewrite step; [|reflexivity].
    pose proof (apo_value h d t a ph z T N G Z NE) as E.
    destruct (get_omegalm_from_phaselm t ph) as [o|]; [cbn [bind] in *|erewrite stop; [|unfold mread; rewrite E; reflexivity]; reflexivity].
    destruct (omega_z z (slookup d "t_zeroecc")) as [oz|]; [cbn [bind] in *|erewrite stop; [|unfold mread; rewrite E; reflexivity]; reflexivity].
    erewrite step; [|unfold mread; rewrite E; reflexivity]. cbv zeta. reflexivity.
  Qed.
  (** ** truncation *)
  Lemma cut_lookup idx (m : mdict (list Q)) k : dlookup mode_eqb (cut_modes idx m) k = option_map (firstn idx) (dlookup mode_eqb m k).
  Proof. unfold cut_modes. induction m as [|[j a] m IH]; [reflexivity|]. cbn. destruct (mode_eqb k j); [reflexivity|exact IH]. Qed.
  Lemma set_rel d d2 k v v2 : nrel d d2 -> In k ["amplm"; "phaselm"; "omegalm"; "t"] -> (k = "t" -> v = v2) -> (k <> "t" -> vrel (Some v) (Some v2)) ->
    nrel (sset d k v) (sset d2 k v2).
  Proof.
    intros (K & T & TZ & R & Z) I E1 E2.
    assert (N : k <> "t_zeroecc" /\ k <> "amplm_zeroecc") by (split; intros ->; repeat (destruct I as [I|I]; [discriminate I|]); destruct I).
    destruct N as [N1 N2]. apply not_eq_sym, String.eqb_neq in N1. apply not_eq_sym, String.eqb_neq in N2.
    split; [now apply sset_keys|]. split; [|split; [|split]].
    - rewrite !slookup_sset. destruct (String.eqb_spec "t" k) as [H|H]; [|exact T]. f_equal. apply E1. now symmetry.
    - rewrite !slookup_sset, N1. exact TZ.
    - intros j J. rewrite !slookup_sset. destruct (String.eqb_spec j k) as [->|H]; [|now apply R]. apply E2. intros ->.
      repeat (destruct J as [J|J]; [discriminate J|]). destruct J.
    - intros M. rewrite !smem_lookup, slookup_sset, N2 in M. rewrite !slookup_sset, N1, N2. apply Z. rewrite smem_lookup. exact M.
  Qed.
  Lemma cut_rel idx d d2 k : nrel d d2 -> In k ["amplm"; "phaselm"; "omegalm"] -> msim still still nrel (cut_entry C idx d k) (cut_entry C idx d2 k).
  Proof.
    intros N I h h2 H. pose proof N as (_ & _ & _ & R & _). assert (J : In k real_keys) by (repeat (destruct I as [<-|I]; [cbn; tauto|]); destruct I).
    specialize (R k J). unfold cut_entry. rewrite !sget_lookup. unfold vrel in R.
    destruct (slookup d k) as [[ |m|m| |]|], (slookup d2 k) as [[ |m2|m2| |]|]; try (elim R; fail); cbn; auto.
    split; [exact H|]. split; [reflexivity|]. apply set_rel; [exact N|repeat (destruct I as [<-|I]; [cbn; tauto|]); destruct I| |].
    - intros ->. repeat (destruct I as [I|I]; [discriminate I|]). destruct I.
    - intros _. unfold vrel. rewrite !cut_lookup, R. reflexivity.
  Qed.
  Lemma truncate_rel num f f2 : frel f f2 -> msim still still nrel (truncate C num f) (truncate C num f2).
  Proof.
    intros (D & T & _ & _ & _ & P1 & P2). unfold truncate. rewrite <- T, <- P1, <- P2. destruct num as [n|]; [|now apply msim_ret].
    destruct (Qlt_bool n 0); [intros h h2 H; cbn; auto|].
    eapply msim_seq; [apply msim_lift|]. intros idx ? <-.
    eapply msim_seq; [apply cut_rel; [exact D|cbn; auto]|]. intros d1 d2 D1.
    eapply msim_seq; [apply cut_rel; [exact D1|cbn; auto]|]. intros d3 d4 D3.
    eapply msim_seq; [apply cut_rel; [exact D3|cbn; auto]|]. intros d5 d6 D5.
    apply msim_ret. apply set_rel; [exact D5|cbn; auto|auto|congruence].
  Qed.
  Definition prel (x y : processed C) : Prop :=
    nrel (p_dict C x) (p_dict C y) /\ p_t_merger C x = p_t_merger C y /\ p_amp_merger C x = p_amp_merger C y /\ p_width C x = p_width C y.
  Lemma process_rel level frame num : msim still still frel (reading level false frame p) (reading level false frame p) ->
    msim still still prel (process_data_dict C (lib_abs L) (lib_phase L) (lib_polar L) (lib_rotate L) (lib_sqrt L) level false frame num p)
      (process_data_dict C (lib_abs L) (lib_phase L) (lib_polar L) (lib_rotate L) (lib_sqrt L) level false frame num p).
  Proof.
    intros H. unfold process_data_dict. eapply msim_seq; [exact H|]. intros f f2 F. eapply msim_seq; [now apply truncate_rel|].
    intros d d2 D. apply msim_ret. destruct F as (_ & _ & F1 & F2 & F3 & _). unfold prel. cbn. auto.
  Qed.
  Lemma reading_rel level frame : agree_in_22 L p h0 h02 -> msim still still frel (reading level false frame p) (reading level false frame p).
  Proof.
    intros (d & d2 & t & D & D2 & N & N2 & T & T2 & (a & ph & a2 & ph2 & G & G2 & (y & Y1 & Y2) & (w & W1 & W2) & (tm & M & M2) & (n & LN)) & Z) h h2 [-> ->].
    assert (X : exists z z2, readable h0 d t a ph z /\ readable h02 d2 t a2 ph2 z2 /\ slookup d "t_zeroecc" = slookup d2 "t_zeroecc" /\ zrel (slookup d "t_zeroecc") z z2 /\
      exists n y, match z, z2 with Some (_, b), Some (_, b2) => dlookup mode_eqb b (2, 2)%Z = Some y /\ dlookup mode_eqb b2 (2, 2)%Z = Some y /\
      (forall k x, In (k, x) b \/ In (k, x) b2 -> length x = n) | _, _ => True end).
    { destruct Z as [(Z1 & Z2 & E)|(times & E1 & E2 & (za & zp & za2 & zp2 & H1 & H2 & (u & U1 & U2) & (v & V1 & V2) & (zm & ZM & ZM2) & (k & LK)))].
      - exists None, None. split; [|split; [|split; [exact E|split; [exact I|exists 0, []; exact I]]]]; unfold readable; repeat (split; [assumption|]); exact I.
      - assert (NE : forall (q : mdict (list Q)) r, mode22 q r -> q <> []) by (intros q r H ->; discriminate H).
        exists (Some (za, zp)), (Some (za2, zp2)). split; [|split; [|split; [congruence|split]]].
        + unfold readable. repeat (split; [assumption|]). split; eauto.
        + unfold readable. repeat (split; [assumption|]). split; eauto.
        + exists times. unfold mode22 in *. split; [exact E1|]. split; [congruence|]. split; [congruence|]. exists zm. auto.
        + exists k, v. auto. }
    destruct X as (z & z2 & R & R2 & E & ZR & k & v & ZL).
    rewrite (read_value level frame h0 d t a ph z R), (read_value level frame h02 d2 t a2 ph2 z2 R2). cbn [fst snd]. split; [split; reflexivity|]. split; [reflexivity|].
    rewrite <- E. unfold mode22 in *. pose proof (omega_same t ph ph2 n w W1 W2 LN) as O.
    destruct (get_omegalm_from_phaselm t ph) as [o|], (get_omegalm_from_phaselm t ph2) as [o2|]; try (elim O; fail); [cbn [bind]|exact O].
    pose proof (omega_z_same _ z z2 k v ZR ZL) as OZ.
    destruct (omega_z z _) as [oz|], (omega_z z2 _) as [oz2|]; try (elim OZ; fail); [cbn [bind]|exact OZ].
    apply (rest_same t _ _ a a2 tm); auto.
    - apply nd_rel; auto; congruence.
    - destruct (slookup d "t_zeroecc"); reflexivity.
    - destruct (slookup d "t_zeroecc"); reflexivity.
  Qed.
  (** ** the whole call *)
  Lemma residual_rel d d2 w tm g : nrel d d2 ->
    (if smem d "amplm_zeroecc" && smem d "omegalm_zeroecc" then do x <- compute_residual L h0 false d w tm g; Ok (Some (fst x), snd x) else Ok (None, g)) =
    (if smem d2 "amplm_zeroecc" && smem d2 "omegalm_zeroecc" then do x <- compute_residual L h02 false d2 w tm g; Ok (Some (fst x), snd x) else Ok (None, g)).
  Proof.
    intros (_ & _ & TZ & R & Z).
    assert (M : forall k, In k real_keys -> smem d k = smem d2 k).
    { intros k K. specialize (R k K). rewrite !smem_lookup. unfold vrel in R. destruct (slookup d k), (slookup d2 k); try reflexivity; try (elim R; fail); destruct d0; elim R. }
    rewrite <- !M by (cbn; tauto). destruct (smem d "amplm_zeroecc") eqn:E; [|reflexivity]. destruct (smem d "omegalm_zeroecc"); [cbn [andb]|reflexivity].
    destruct (Z E) as (tz & m & m2 & amp & amp2 & tp & k & k2 & Z1 & Z2 & Z3 & Z4 & Z5 & Z6 & Z7).
    unfold compute_residual. rewrite !sget_lookup, <- TZ, Z1. cbn [bind arr_of]. destruct (check_uniform tz); [cbn [bind]|reflexivity].
    rewrite (vrel_gw h0 h02 d d2 "_zeroecc" R) by (red; auto).
    destruct (get_amp_phase_omega_gw C h02 false d2 "_zeroecc") as [[[x y] z]|]; [cbn [bind]|reflexivity].
    unfold modes_at. rewrite !sget_lookup, Z2, Z3. cbn [bind real_of]. rewrite Z4, Z5. cbn [bind]. rewrite Z6, Z7. reflexivity.
  Qed.
  Lemma wsim_heap2 {A B} (P P' : hpair) (R : A -> B -> Prop) (m : M C A) (m2 : M C B) : msim P P' R m m2 -> wsim P P' R (on_heap m) (on_heap m2).
  Proof.
    intros E w w2 [H1 H2]. destruct (E _ _ H1) as (A1 & A2 & A3). unfold on_heap. cbn. split; [split; [exact A1|exact H2]|]. split; [now rewrite A2|exact A3].
  Qed.
  Variable a : args.
  Hypothesis Lv : In (a_level a) [-1; 0; 1]%Z.
  Hypothesis Pr : a_precessing a = false.
  Hypothesis Ag : agree_in_22 L p h0 h02.
  Lemma init_rel : wsim still still eq (init L a p) (init L a p).
  Proof.
    unfold init. rewrite Pr.
    eapply wsim_seq; [apply wsim_lift|]. intros rf ? <-.
    eapply wsim_seq; [apply wsim_lift|]. intros _ _ _.
    eapply wsim_seq; [apply wsim_heap2, process_rel, reading_rel, Ag|]. intros pd pd2 PD. cbv zeta.
    destruct PD as (D & E1 & E2 & E3). rewrite <- E1, <- E2, <- E3. pose proof D as (K & T & TZ & R & Z). rewrite !sget_lookup, <- T, <- K.
    eapply wsim_seq; [apply wsim_lift|]. intros t ? <-.
    eapply wsim_seq; [apply wsim_lift|]. intros _ _ _.
    eapply wsim_seq; [apply wsim_read; intros h h2 [-> ->]; apply vrel_gw; [exact R|red; auto]|]. intros gw ? <-.
    eapply (wsim_seq _ eq).
    { intros w w2 H. cbn. split; [exact H|]. split; [reflexivity|]. now rewrite (proj2 H). }
    intros fe ? <-.
    eapply wsim_seq; [apply wsim_lift|]. intros ek ? <-.
    eapply wsim_seq; [apply wsim_lift|]. intros n ? <-.
    eapply wsim_seq; [apply wsim_log|]. intros wv ? <-.
    eapply wsim_seq; [apply wsim_lift|]. intros op ? <-.
    eapply (wsim_seq _ (fun _ _ => True)).
    { intros w w2 H. unfold wread. cbn [fst snd lift]. split; [exact H|]. split; [reflexivity|].
      destruct H as [[-> ->] _]. destruct Ag as (d & d2 & times & A & B & _). unfold is_dict in *. cbn. now rewrite A, B. }
    intros u u2 _. eapply (wsim_seq _ (fun _ _ => True)).
    { intros w w2 H. unfold wlog. cbn [fst snd]. split; [exact H|].
      destruct (warn_quiet (a_level a) (dkeys u) Lv) as [-> ->], (warn_quiet (a_level a) (dkeys u2) Lv) as [-> ->]. auto. }
    intros _ _ _.
    eapply wsim_seq; [apply wsim_read; intros h h2 [-> ->]; apply residual_rel, D|]. intros rs ? <-. apply wsim_ret.
  Qed.
  Lemma build_rel m : wsim still still eq (build L m a p) (build L m a p).
  Proof.
    unfold build. eapply wsim_seq; [apply init_rel|]. intros b ? <-. cbv zeta.
    repeat match goal with |- wsim _ _ _ (if String.eqb m ?k then _ else _) _ => destruct (String.eqb m k) end;
      repeat (eapply wsim_seq; [apply wsim_lift|]; intros ? ? <-); apply wsim_ret.
  Qed.
  Lemma call_rel m : wsim still still eq (measure_eccentricity L m a p) (measure_eccentricity L m a p).
  Proof.
    unfold measure_eccentricity. destruct (existsb _ _); [|apply wsim_lift].
    eapply wsim_seq; [apply build_rel|]. intros o ? <-. cbv zeta. eapply wsim_seq; [apply wsim_log|]. intros r ? <-. apply wsim_ret.
  Qed.
End S.
Lemma modes_claim C V (L : library C V) m a p h h2 x : In (a_level a) [-1; 0; 1]%Z -> a_precessing a = false -> agree_in_22 L p h h2 ->
  let r := measure_eccentricity L m a p {| wd_heap := h; wd_extra := x |} in
  let r2 := measure_eccentricity L m a p {| wd_heap := h2; wd_extra := x |} in
  wd_heap (fst r) = h /\ wd_heap (fst r2) = h2 /\ wd_extra (fst r) = wd_extra (fst r2) /\
  but_unknown (fst (snd r)) = but_unknown (fst (snd r2)) /\ snd (snd r) = snd (snd r2).
Proof.
  intros Lv Pr Ag. cbv zeta.
  destruct (call_rel L p h h2 a Lv Pr Ag m {| wd_heap := h; wd_extra := x |} {| wd_heap := h2; wd_extra := x |} (conj (conj eq_refl eq_refl) eq_refl)) as ([[A A2] A3] & B & D).
  split; [exact A|]. split; [exact A2|]. split; [exact A3|]. split; [exact B|]. revert D.
  generalize (snd (snd (measure_eccentricity L m a p {| wd_heap := h; wd_extra := x |}))) as r1.
  generalize (snd (snd (measure_eccentricity L m a p {| wd_heap := h2; wd_extra := x |}))) as r2. intros [?|?] [?|?] D; try (elim D; fail); now subst.
Qed.
