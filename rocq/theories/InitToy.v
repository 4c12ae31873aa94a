(** A small waveform and a library for the examples of Props_Init.v: complex modes are pairs of amplitude and phase
    arrays, interpolation is linear, peaks are strict local maxima, the square root is replaced by the identity and the
    filter returns the data as it is. *)
From Verif Require Import Base BaseLemmas UtilsModel UtilsSpec ExtremaModel RationalModel MeasureModel MeasureSpec AverageLemmas SegmentModel DataModel DataTotal Toy InitModel InitSpec.
Open Scope string_scope.
Open Scope nat_scope.

(** strict local maxima *)
Fixpoint maxima (i : nat) (l : list Q) : list nat :=
  match l with
  | a :: (b :: c :: _) as r => if Qlt_bool a b && Qlt_bool c b then S i :: maxima (S i) r else maxima (S i) r
  | _ => []
  end.
Definition in_t : list Q := ex_n 24.
Definition in_ph : list Q := map (fun x => Qred (2 * np_pi * x + x * x / 50)) in_t.
Definition wiggle (f g : Q -> Q) (i : nat) : Q := let x := inject_Z (Z.of_nat i) in Qred (if Nat.even i then f x else g x).
Definition bump (i : nat) : Q := let x := inject_Z (Z.of_nat i) in (150 - (x - 19) * (x - 19))%Q.
Definition in_amp : list Q := map (fun i => if i <? 14 then wiggle (fun x => 105 + x / 10)%Q (fun x => 95 + x / 10)%Q i else bump i) (seq 0 24).
Definition in_om : list Q := map (wiggle (fun x => 3 + x / 10)%Q (fun x => 2 + x / 10)%Q) (seq 0 24).
Definition in_ampz : list Q := map (fun i => if i <? 14 then 100 + inject_Z (Z.of_nat i) / 10 else bump i)%Q (seq 0 24).
Definition in_omz : list Q := map (fun x => 5 # 2)%Q in_t.
Definition in_d (keys : list (string * nat)) (more : sdict (dval ex_c)) : sdict (dval ex_c) :=
  (("t", VArr ex_c in_t) :: map (fun k => (fst k, VRef ex_c (snd k))) keys ++ more)%list.
Definition in_plain := in_d [("amplm", 1); ("phaselm", 2); ("omegalm", 3)] [].
Definition in_zero := in_d [("amplm", 1); ("phaselm", 2); ("omegalm", 3); ("amplm_zeroecc", 4); ("phaselm_zeroecc", 2); ("omegalm_zeroecc", 5)] [("t_zeroecc", VArr ex_c in_t)].
Definition in_twice := in_d [("amplm", 1); ("phaselm", 2); ("omegalm", 3); ("amplm_zeroecc", 1); ("phaselm_zeroecc", 2); ("omegalm_zeroecc", 3)] [("t_zeroecc", VArr ex_c in_t)].
Definition in_heap (d : sdict (dval ex_c)) : heap ex_c :=
  [OTop ex_c d; OReal ex_c (both (fun a => a) in_amp); OReal ex_c (both neg in_ph); OReal ex_c (both neg in_om);
   OReal ex_c (both (fun a => a) in_ampz); OReal ex_c (both neg in_omz)].
Definition in_lib : library ex_c Q :=
  {| lib_abs := fst; lib_phase := snd; lib_polar := fun a p => Ok (a, p); lib_rotate := fun _ c => Ok c; lib_sqrt := fun x => x;
     lib_secular := fun t o => Ok o; lib_spline := lin; lib_pchip := lin3;
     lib_rational := fun x y _ => Ok (fun t => Ok (lin3 x y t));
     lib_slope := fun _ e => map (fun d => Qlt_bool 0 d) (qdiff e);
     lib_ecc := fun wp wa => Qred ((wp - wa) / (wp + wa)); lib_zero := 0%Q; lib_negative := fun e => Qlt_bool e 0;
     lib_peaks := fun data _ => Ok (maxima 0 data);
     lib_fits := fun _ _ _ data _ _ b => Ok (maxima 0 (map (fun x => (if b then 1 else -1) * x)%Q data));
     lib_filter := fun d _ _ => lift (do gw <- get_amp_phase_omega_gw ex_c [] true d "";
       Ok {| fl_amp := fst (fst gw); fl_phase := snd (fst gw); fl_omega := snd gw; fl_omega_filtered := false |}) |}.
Definition in_world (d : sdict (dval ex_c)) (extra : option kwargs) : world ex_c := {| wd_heap := in_heap d; wd_extra := extra |}.
Definition in_args (t f : option refin) (precessing : bool) : args :=
  {| a_tref := t; a_fref := f; a_num := None; a_precessing := precessing; a_frame := if precessing then "coprecessing" else "inertial"; a_level := 0 |}.
(** the returned numbers in lowest terms *)
Definition in_out (r : world ex_c * lg (sdict (entry Q))) : res (list (string * list Q)) :=
  match snd (snd r) with
  | Ok d => Ok (flat_map (fun kv => match snd kv with EEcc e => [(fst kv, redo e)] | ERef e => [(fst kv, redo e)] | _ => [] end) d)
  | Err e => Err e
  end.
Definition in_run (m : string) (d : sdict (dval ex_c)) (extra : option kwargs) (a : args) := in_out (measure_eccentricity in_lib m a 0 (in_world d extra)).
Definition in_spline : kwargs := [("omega_gw_extrema_interpolation_method", Leaf (LStr "spline"))].
Definition in_filter : kwargs := [("filter_kwargs", Dict [("alpha", LNum 3)])].
(** exception raised, if any *)
Definition in_error (r : world ex_c * lg (sdict (entry Q))) : option exn := match snd (snd r) with Ok _ => None | Err e => Some e end.
(** the detection data of the returned object *)
Definition in_data (r : world ex_c * lg (sdict (entry Q))) : list Q :=
  match snd (snd r) with
  | Ok d => match slookup d "gwecc_object" with Some (EObject o _) => map Qred (o_data o) | _ => [] end
  | Err _ => []
  end.
(** some options, and what the returned object makes of them *)
Definition in_options : kwargs :=
  [("omega_gw_extrema_interpolation_method", Leaf (LStr "spline")); ("general_interp_kwargs", Dict [("k", LNum 4)]);
   ("treat_mid_points_between_pericenters_as_apocenters", Leaf (LBool true)); ("kwargs_for_fits_methods", Dict [("num_orbits", LNum 2)])].
Definition in_config (r : world ex_c * lg (sdict (entry Q))) :=
  match snd (snd r) with
  | Ok d => match slookup d "gwecc_object" with
            | Some (EObject o _) => let c := b_config (o_base o) in
                Some (c_midpoints c, c_interp c, c_average c, sp_k (c_general c), sp_k (c_special c),
                      map (slookup (o_fits o)) ["num_orbits"; "distance_factor"; "unknown"])
            | _ => None
            end
  | Err _ => None
  end.
Definition in_bent : sdict (dval ex_c) := sset in_plain "t" (VArr ex_c (map (fun x => if Qeq_bool x 3 then 31 # 10 else x)%Q in_t)).
Lemma in_twice_same : same_zeroecc in_twice.
Proof. intros k Hk. cbn in Hk. decompose [or] Hk; subst; try reflexivity; contradiction. Qed.
Lemma scan_knot : forall x y i xi yi t, increasing x -> length x = length y -> nth_error x i = Some xi -> nth_error y i = Some yi ->
  (t == xi)%Q -> (interp_scan t x y == yi)%Q.
Proof.
  induction x as [|a x IH]; intros y i xi yi t I Hl Hx Hy E; [destruct i; discriminate|].
  destruct y as [|u y]; [discriminate|]. destruct x as [|b x].
  - destruct y; [|discriminate]. destruct i as [|i]; cbn in Hx, Hy; [|destruct i; discriminate]. injection Hy as <-. reflexivity.
  - destruct y as [|v y]; [discriminate|]. change (interp_scan t (a :: b :: x) (u :: v :: y)) with
      (if Qlt_bool t b then (u + (v - u) / (b - a) * (t - a))%Q else interp_scan t (b :: x) (v :: y)).
    assert (Lab : (a < b)%Q) by (apply (I 0 1); auto).
    destruct i as [|i].
    + cbn in Hx, Hy. injection Hx as <-. injection Hy as <-. assert (B : Qlt_bool t b = true) by (apply Qlt_bool_iff; lra). rewrite B.
      assert (Z : (t - a == 0)%Q) by lra. rewrite Z. ring.
    + assert (B : Qlt_bool t b = false).
      { apply Qlt_bool_false. destruct i as [|i]; [cbn in Hx; injection Hx as <-; lra|].
        assert (b < xi)%Q by (apply (I 1 (S (S i))); auto; lia). lra. }
      rewrite B. apply (IH (v :: y) i xi yi t); auto. now apply increasing_tl in I.
Qed.
Lemma lin_interpolating : interpolating lin.
Proof.
  intros x y k i xi yi t I Hl Hx Hy E. unfold lin, np_interp. destruct x as [|a x]; [destruct i; discriminate|]. destruct y as [|u y]; [discriminate|].
  assert (B : Qlt_bool t a = false).
  { apply Qlt_bool_false. destruct i as [|i]; [cbn in Hx; injection Hx as <-; lra|]. assert (a < xi)%Q by (apply (I 0 (S i)); auto; lia). lra. }
  rewrite B. eapply scan_knot; eauto.
Qed.
Lemma in_zero_keys : NoDup (dkeys in_zero).
Proof. cbn. repeat constructor; cbn; intuition discriminate. Qed.
Lemma in_polar : polar_numbers in_lib.
Proof. intros [a p]. reflexivity. Qed.
