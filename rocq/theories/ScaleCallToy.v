(** The example waveform of InitToy.v in other units of time: example data for Props_Scale.v. *)
From Coq Require Import Lia Lqa.
From Verif Require Import Base BaseLemmas UtilsModel UtilsSpec ExtremaModel RationalModel MeasureModel SegmentModel DataModel DataTotal InitModel InitSpec ScaleSpec ScaleLemmas ScaleMeasure ScalePeak ScaleData ScaleCallSpec ScaleCall Toy ScaleToy InitToy.
Open Scope string_scope.
Open Scope nat_scope.
Open Scope list_scope.

Lemma maxima_scale r l l' : (0 < r)%Q -> Forall2 (same_time r 0) l l' -> forall i, maxima i l' = maxima i l.
Proof.
  intros Hr H. induction H as [|x x' l l' Hx H IH]; intros i; [reflexivity|]. destruct H as [|y y' l l' Hy H]; [reflexivity|].
  destruct H as [|z z' l l' Hz H]; [reflexivity|]. specialize (IH (S i)).
  change (maxima i (x :: y :: z :: l)) with (if Qlt_bool x y && Qlt_bool z y then S i :: maxima (S i) (y :: z :: l) else maxima (S i) (y :: z :: l)).
  change (maxima i (x' :: y' :: z' :: l')) with (if Qlt_bool x' y' && Qlt_bool z' y' then S i :: maxima (S i) (y' :: z' :: l') else maxima (S i) (y' :: z' :: l')).
  rewrite IH, (T_lt r 0 x y x' y' Hr Hx Hy), (T_lt r 0 z y z' y' Hr Hz Hy). reflexivity.
Qed.
Lemma in_peaks : peaks_scale (lib_peaks in_lib).
Proof. intros r y y' kw Hr H _. cbn. f_equal. apply (maxima_scale r); assumption. Qed.
Lemma in_fits a b o : (0 < a)%Q -> fits_scale a b o (lib_fits in_lib).
Proof.
  intros Ha t tm ph y kw rf p t' tm' ph' y' _ _ _ H. cbn. f_equal. destruct H as [H|H].
  { apply (maxima_scale 1); [reflexivity|]. eapply f2_map; [|exact H]. intros u u' Hu. unfold same_time. rewrite Hu. ring. }
  assert (Na : ~ (a == 0)%Q) by lra. apply (freqs_T a _ _ Na) in H. apply (maxima_scale (1 / a)); [apply inv_pos; exact Ha|].
  eapply f2_map; [|exact H]. intros u u' Hu. unfold same_time in *. rewrite Hu. ring.
Qed.
Lemma in_secular a b : secular_scale a b (lib_secular in_lib).
Proof. intros t w t' w' _ H. constructor. exact H. Qed.
Lemma in_rotate a : rotation_scale a (lib_rotate in_lib).
Proof. intros b t t' c _. reflexivity. Qed.
Lemma in_filter_scale a b o kinds : (0 < a)%Q -> filter_scale a b o kinds (lib_filter in_lib).
Proof.
  intros Ha d d' tm tm' kw Hd _. split; [reflexivity|]. cbn [lib_filter in_lib lift snd].
  assert (Hh : same_heap (C := ex_c) a b o kinds [] []) by (intros p; destruct p; constructor).
  eapply rb; [exact (r_gw a b ex_c o kinds Ha [] [] d d' true "" (or_introl eq_refl) Hh Hd)|].
  intros gw gw' (E & H1 & H2). constructor. constructor; cbn; first [assumption|congruence|reflexivity].
Qed.
Lemma in_root k : (0 < k)%Q -> root_scale k (lib_sqrt in_lib).
Proof. intros Hk. exists k. split; [exact Hk|]. intros x x' H. exact H. Qed.
Lemma in_library a b : (0 < a)%Q -> library_scale a b in_lib.
Proof. intros Ha. constructor; [exact lin_affine|exact (toy_ecc_ratio a Ha)|exact (toy_slope_affine a b)|exact in_peaks]. Qed.
Lemma in_calls a b o kinds m x : (0 < a)%Q -> (0 < amp_unit o)%Q -> a_frame x <> "inertial" \/ o = kept -> calls_scale a b o kinds in_lib m x.
Proof.
  intros Ha Hc Ho. constructor; [right; apply in_fits; exact Ha|right; apply in_secular| |].
  2:{ unfold amp_unit in Hc. destruct (ch_amps o) as [k|]; [|exact I]. split; [exact Hc|]. apply in_root. apply Qmult_lt_0_compat; exact Hc. }
  right. split; [|apply in_filter_scale; exact Ha].
  destruct Ho as [Ho|Ho]; [left; exact Ho|right; split; [exact Ho|apply in_rotate]].
Qed.

(** The waveform, its circular counterpart and the request in other units. *)
Definition re_t (a b : Q) := map (fun t : Q => Qred (a * t + b)).
Definition re_w (a : Q) := map (fun w : Q => Qred (w / a)).
Definition re_dict (a b b0 : Q) (d : sdict (dval ex_c)) : sdict (dval ex_c) :=
  map (fun kv => (fst kv, match snd kv with VArr _ l => VArr ex_c (if String.eqb (fst kv) "t" then re_t a b l else re_t a b0 l) | v => v end)) d.
Definition re_modes (a : Q) (m : mdict (list Q)) : mdict (list Q) := map (fun kl => (fst kl, re_w a (snd kl))) m.
Definition in_kinds (p : nat) : kind := if (p =? 3) || (p =? 5) then Frequencies else if p =? 2 then Phases else if (p =? 1) || (p =? 4) then Amplitudes else OtherKind.
Definition re_world (a b b0 : Q) (d : sdict (dval ex_c)) (extra : option kwargs) : world ex_c :=
  {| wd_heap := [OTop ex_c (re_dict a b b0 d); OReal ex_c (both (fun a => a) in_amp); OReal ex_c (both neg in_ph); OReal ex_c (re_modes a (both neg in_om));
       OReal ex_c (both (fun a => a) in_ampz); OReal ex_c (re_modes a (both neg in_omz))]; wd_extra := extra |}.
Lemma re_t_same a b l : same_times a b l (re_t a b l).
Proof. unfold re_t, same_times. induction l; constructor; [|assumption]. unfold same_time. apply Qred_correct. Qed.
Lemma re_w_same a l : same_freqs a l (re_w a l).
Proof. unfold re_w, same_freqs. induction l; constructor; [|assumption]. unfold same_freq. apply Qred_correct. Qed.
Lemma re_modes_same a m : same_modes (same_freqs a) m (re_modes a m).
Proof. unfold re_modes, same_modes. induction m; constructor; [|assumption]. split; [reflexivity|apply re_w_same]. Qed.
Lemma in_t_even : evenly in_t.
Proof.
  exists 1%Q. intros d H. assert (G : forallb (fun x => Qeq_bool x 1) (qdiff in_t) = true) by (vm_compute; reflexivity).
  rewrite forallb_forall in G. apply Qeq_bool_iff. apply G. exact H.
Qed.
Lemma re_world_same a b b0 extra : same_world a b kept in_kinds (in_world in_zero extra) (re_world a b b0 in_zero extra).
Proof.
  constructor; [|reflexivity].
  assert (D : same_dict a b kept in_kinds in_zero (re_dict a b b0 in_zero)).
  { unfold in_zero, in_d, re_dict. cbn [map app fst snd String.eqb Ascii.eqb Bool.eqb].
    repeat (constructor; [split; [reflexivity|cbn]|]); try (split; reflexivity).
    - split; [apply re_t_same|right; exact in_t_even].
    - exists b0. split; [apply re_t_same|right; exact in_t_even].
    - constructor. }
  intros p. do 6 (destruct p as [|p]; [cbn; constructor; cbn; first [exact D|reflexivity|apply re_modes_same|apply modes_refl; reflexivity]|]). cbn. destruct p; constructor.
Qed.
(** A waveform whose last step is a little longer than the others, as a dictionary of the caller. *)
Definition un_t : list Q := map (fun x => if Qeq_bool x 23 then x + (1001 # 100000000) else x)%Q in_t.
Definition un_world (t : list Q) (om : mdict (list Q)) : world ex_c :=
  {| wd_heap := [OTop ex_c [("t", VArr ex_c t); ("amplm", VReal ex_c (both (fun a => a) in_amp));
       ("phaselm", VReal ex_c (both neg in_ph)); ("omegalm", VReal ex_c om)]]; wd_extra := Some in_spline |}.
