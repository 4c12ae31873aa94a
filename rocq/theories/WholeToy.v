(** A waveform for the examples of Props_Whole.v: eight samples per orbit, six orbits, merger at sample 48. *)
From Verif Require Import Base BaseLemmas UtilsModel ExtremaModel ExtremaSpec RationalModel MeasureModel SegmentModel DataModel FitsModel FitsSpec FitsClaims DataTotal Toy InitModel InitToy WholeModel.
Open Scope string_scope.
Open Scope nat_scope.

Definition wh_t : list Q := ex_n 56.
Definition wh_wave (i : nat) : Q := inject_Z (Z.of_nat (match i mod 8 with 4 => 12 | 3 | 5 => 10 | 0 => 6 | _ => 8 end)).
Definition wh_amp : list Q := map (fun i => Qred (if i <? 40 then 100 + wh_wave i else 200 - inject_Z (Z.of_nat (if i <? 48 then 48 - i else i - 48))))%Q (seq 0 56).
Definition wh_ph : list Q := map (fun x => Qred (2 * x)) wh_t.
Definition wh_om : list Q := map wh_wave (seq 0 56).
Definition wh_world (extra : option kwargs) : world ex_c :=
  {| wd_heap := [OTop ex_c (("t", VArr ex_c wh_t) :: [("amplm", VRef ex_c 1); ("phaselm", VRef ex_c 2); ("omegalm", VRef ex_c 3)]);
                 OReal ex_c (both (fun a => a) wh_amp); OReal ex_c (both neg wh_ph); OReal ex_c (both neg wh_om)];
     wd_extra := extra |}.
Definition wh_fit (t0 : Q) (ts ys : list Q) (p : params) (b : params * params) : res params := Ok {| q_f0 := Qred (q_f0 p); q_f1 := 0; q_T := 100 |}.
Definition wh_lib : library ex_c Q :=
  {| lib_abs := lib_abs in_lib; lib_phase := lib_phase in_lib; lib_polar := lib_polar in_lib; lib_rotate := lib_rotate in_lib; lib_sqrt := Qred;
     lib_secular := lib_secular in_lib; lib_spline := lib_spline in_lib; lib_pchip := lib_pchip in_lib; lib_rational := lib_rational in_lib;
     lib_slope := lib_slope in_lib; lib_ecc := lib_ecc in_lib; lib_zero := lib_zero in_lib; lib_negative := lib_negative in_lib; lib_peaks := lib_peaks in_lib;
     lib_fits := fits_search toy_env wh_fit toy_find_peaks toy_parabola toy_cubic; lib_filter := lib_filter in_lib |}.
Definition wh_call (m : string) (extra : option kwargs) := measure_eccentricity wh_lib m (in_args (Some (RScalar 20)) None false) 0 (wh_world extra).
(** the extrema of the returned object and whether eccentricity was set to zero *)
Definition wh_extrema (r : world ex_c * lg (sdict (entry Q))) :=
  match snd (snd r) with
  | Ok d => match slookup d "gwecc_object" with Some (EObject o s) => Ok (s_zero s, s_peri s, s_apo s) | _ => Err KeyError end
  | Err e => Err e
  end.
Definition wh_error (r : world ex_c * lg (sdict (entry Q))) : option exn := match snd (snd r) with Ok _ => None | Err e => Some e end.
Definition wh_midpoints : kwargs := [("treat_mid_points_between_pericenters_as_apocenters", Leaf (LBool true))].
Definition wh_orbits (n : Q) : kwargs := [("kwargs_for_fits_methods", Dict [("num_orbits", LNum n)])].
Lemma wh_peaks_sorted : forall y k i, lib_peaks wh_lib y k = Ok i -> sorted i.
Proof.
  intros y k i H. apply Ok_inj in H. subst i. unfold sorted. enough (E : forall n, maxima n y = toy_local n y) by (rewrite E; apply toy_local_ok).
  induction y as [|a y IH]; intros n; [reflexivity|]. destruct y as [|b [|c y]]; [reflexivity..|].
  change (maxima n (a :: b :: c :: y)) with (if Qlt_bool a b && Qlt_bool c b then S n :: maxima (S n) (b :: c :: y) else maxima (S n) (b :: c :: y)).
  change (toy_local n (a :: b :: c :: y)) with ((if Qlt_bool a b && Qlt_bool c b then [S n] else []) ++ toy_local (S n) (b :: c :: y))%list.
  rewrite IH. now destruct (_ && _).
Qed.
