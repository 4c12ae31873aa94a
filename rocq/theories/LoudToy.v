(** The example waveform of InitToy.v with louder amplitudes, and a peak search that looks at the level asked for: example data
    for Props_Loud.v. *)
From Coq Require Import Lqa.
From Verif Require Import Base BaseLemmas UtilsModel UtilsSpec ExtremaModel RationalModel MeasureModel SegmentModel DataModel DataTotal InitModel ScaleSpec ScaleLemmas ScaleCallSpec Toy ScaleToy InitToy ScaleCallToy LoudSpec.
Open Scope string_scope.
Open Scope nat_scope.
Open Scope list_scope.

Definition loud (k : Q) (d : mdict (list Q)) : mdict (list Q) := map (fun kl => (fst kl, map (fun y => k * y)%Q (snd kl))) d.
Definition loud_w (k : Q) (d : sdict (dval ex_c)) (extra : option kwargs) : world ex_c :=
  {| wd_heap := [OTop ex_c d; OReal ex_c (loud k (both (fun a => a) in_amp)); OReal ex_c (both neg in_ph); OReal ex_c (both neg in_om);
       OReal ex_c (loud k (both (fun a => a) in_ampz)); OReal ex_c (both neg in_omz)]; wd_extra := extra |}.
Lemma loud_loud k d : loud_modes k d (loud k d).
Proof.
  unfold loud_modes, loud. induction d as [|kl d IH]; constructor; [|exact IH]. split; [reflexivity|]. cbn [fst snd].
  induction (snd kl); constructor; [reflexivity|assumption].
Qed.
Lemma loud_w_loud k extra : loud_world k in_kinds (in_world in_zero extra) (loud_w k in_zero extra).
Proof.
  constructor; [reflexivity| |reflexivity].
  assert (D : loud_dict (C := ex_c) k in_kinds in_zero in_zero).
  { unfold in_zero, in_d. cbn [map app fst snd].
    repeat (constructor; [split; [reflexivity|cbn [fst snd]; first [apply loud_shared; reflexivity|apply loud_array]]|]). constructor. }
  intros p x x' H H'. do 6 (destruct p as [|p]; [injection H as <-; injection H' as <-; first [apply loud_top; exact D|apply loud_others; discriminate|apply loud_amps; [reflexivity|apply loud_loud]]|]).
  destruct p; discriminate H.
Qed.

(** Maxima at least as high as the height asked for. *)
Definition high_peaks (data : list Q) (kw : sdict leaf) : res (list nat) :=
  Ok match slookup kw "height" with
     | Some (LNum q) => filter (fun i => match get data i with Ok y => Qle_bool q y | Err _ => false end) (maxima 0 data)
     | _ => maxima 0 data
     end.
Definition high_lib : library ex_c Q :=
  {| lib_abs := lib_abs in_lib; lib_phase := lib_phase in_lib; lib_polar := lib_polar in_lib; lib_rotate := lib_rotate in_lib; lib_sqrt := lib_sqrt in_lib;
     lib_secular := lib_secular in_lib; lib_spline := lib_spline in_lib; lib_pchip := lib_pchip in_lib; lib_rational := lib_rational in_lib;
     lib_slope := lib_slope in_lib; lib_ecc := lib_ecc in_lib; lib_zero := lib_zero in_lib; lib_negative := lib_negative in_lib;
     lib_peaks := high_peaks; lib_fits := lib_fits in_lib; lib_filter := lib_filter in_lib |}.
Lemma high_scale : peaks_scale high_peaks.
Proof.
  intros r y y' kw Hr H Hl. unfold high_peaks. rewrite (maxima_scale r y y' Hr H 0). destruct Hl as [E|Hl]; [|rewrite (Hl "height" (or_introl eq_refl)); reflexivity].
  destruct (slookup kw "height") as [[]|]; try reflexivity. f_equal. generalize (maxima 0 y). intros l. induction l as [|i l IH]; [reflexivity|]. cbn [filter].
  rewrite IH. pose proof (f2_get _ _ _ i H) as G. inversion G as [u u' Hu E1 E2|e e' He E1 E2]; [|reflexivity].
  assert (Q : (u' == u)%Q) by (unfold same_time in Hu; rewrite Hu, E; ring).
  match goal with |- (if Qle_bool ?q u' then _ else _) = _ => assert (B : Qle_bool q u' = Qle_bool q u) by (apply Bool.eq_true_iff_eq; rewrite !Qle_bool_iff, Q; tauto) end.
  rewrite B. reflexivity.
Qed.
Lemma high_library a b : (0 < a)%Q -> library_scale a b high_lib.
Proof. intros Ha. destruct (in_library a b Ha) as [H1 H2 H3 H4]. constructor; [exact H1|exact H2|exact H3|exact high_scale]. Qed.
Lemma high_calls a b o kinds m x : (0 < a)%Q -> (0 < amp_unit o)%Q -> a_frame x <> "inertial" \/ o = kept -> calls_scale a b o kinds high_lib m x.
Proof. intros Ha Hc Ho. destruct (in_calls a b o kinds m x Ha Hc Ho) as [H1 H2 H3 H4]. constructor; assumption. Qed.
Definition in_height : kwargs := [("omega_gw_extrema_interpolation_method", Leaf (LStr "spline")); ("extrema_finding_kwargs", Dict [("height", LNum (-1000))])]%Q.
Lemma loud_refuted : exists k (L : library _ _) x w w', library_scale 1 0 L /\ calls_scale 1 0 (louder k) in_kinds L "Amplitude" x /\
  spline_chosen (wd_extra w) /\ loud_world k in_kinds w w' /\
  in_out (measure_eccentricity L "Amplitude" x 0 w) =
    Ok [("eccentricity", [5 # 31; 5 # 32]); ("mean_anomaly", [0; np_pi]); ("tref_out", [6; 7])]%Q /\
  in_out (measure_eccentricity L "Amplitude" x 0 w') = Err GenericException.
Proof.
  exists 20%Q, high_lib, (in_args (Some (RArr [6; 7]%Q)) None true), (in_world in_zero (Some in_height)), (loud_w 20 in_zero (Some in_height)).
  split; [exact (high_library 1 0 eq_refl)|]. split; [apply high_calls; [reflexivity|reflexivity|left; discriminate]|].
  split; [exists in_height; split; reflexivity|]. split; [exact (loud_w_loud 20 _)|]. split; vm_compute; reflexivity.
Qed.
