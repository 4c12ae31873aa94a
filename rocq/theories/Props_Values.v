(** Properties of loaded waveforms: the values of LVCNR and EMRI data (C91) and the warnings about quasi-circular counterparts (C92). *)
From Coq Require Import Qabs.
From Verif Require Import Base BaseLemmas UtilsModel UtilsSpec MeasureModel DataModel HelperModel HelperSpec LoadModel LoadSpec LoadValuesSpec LoadLemmas LoadKeys LoadLAL LoadZero LoadSpins LoadClaims LoadOther LoadValues LoadWarn LoadToy LoadRuns.
Open Scope string_scope.
Open Scope nat_scope.

(** C91.  LVCNR data: the library is asked for the modes of the file at a total mass of 10 solar masses, a distance of 1 Mpc and the requested step and
    starting frequency; the modes are those divided by the amplitude factor G M / (c^2 D), without the requested orbits of junk, which the phase of mode (2,2) counts. *)
Theorem C91_lvcnr : forall (S : sources) fuel u data, snd (load_waveform S fuel "LVCNR" u) = Ok data -> (0 < so_mtsun S)%Q ->
  exists path f dt om orbits t d raw step m1 m2 dist flow t1 d1 i,
    asked "LVCNR" u "filepath" (Some (AStr path)) /\ asked "LVCNR" u "deltaTOverM" (Some (ANum dt)) /\ asked "LVCNR" u "Momega0" (Some (ANum om)) /\
    asked "LVCNR" u "num_orbits_to_remove_as_junk" (Some (ANum orbits)) /\ so_lvcnr S path = Ok f /\ lvcnr_call S f dt om step m1 m2 dist flow /\
    nr_hlms f step m1 m2 dist flow = Ok raw /\
    Forall2 (fun a b : mode * list cnum => fst b = fst a /\ rescaled (/ (so_g S * 10 * so_msun S / (so_c S * so_c S * 1 * 1000000 * so_pc S)))%Q (snd a) (snd b)) raw d1 /\
    uniform dt t1 /\ ((0 < dt)%Q -> merger_at_zero S t1 d1) /\ phase_junk S d1 orbits i /\ without_first i t1 d1 t d /\ holds data "t" (DTime t) /\ holds data "hlm" (DModes d).
Proof. exact lvcnr_values. Qed.
Print Assumptions C91_lvcnr.
Example C91_lvcnr_ex : (0 < so_mtsun toy)%Q /\ exists d, loads 5 "LVCNR" (nr_kw []) d /\ times d "t" (grid_of (-12) 1 16).
Proof. split; [reflexivity|exact run_lvcnr]. Qed.

(** C91.  LVCNR_hack data: each sample of mode (2,2) has the amplitude and the phase of splines through those of the file. *)
Theorem C91_hack : forall (S : sources) fuel u data, snd (load_waveform S fuel "LVCNR_hack" u) = Ok data ->
  exists path f orbits t grid z z1 A P i, asked "LVCNR_hack" u "filepath" (Some (AStr path)) /\ asked "LVCNR_hack" u "num_orbits_to_remove_as_junk" (Some (ANum orbits)) /\ so_raw S path = Ok f /\
    holds data "t" (DTime t) /\ holds data "hlm" (DModes [((2, 2)%Z, z)]) /\ spline_of S (ra_t_amp f) (ra_amp f) A /\ spline_of S (ra_t_phase f) (ra_phase f) P /\
    polar S A P t z /\ polar S A P grid z1 /\ phase_junk S [((2, 2)%Z, z1)] orbits i /\ without_first i grid [((2, 2)%Z, z1)] t [((2, 2)%Z, z)].
Proof. exact hack_values. Qed.
Print Assumptions C91_hack.
Example C91_hack_ex : exists d, loads 5 "LVCNR_hack" (nr_kw []) d /\ times d "t" (grid_of 25 1 15).
Proof. exact run_hack. Qed.

(** C91.  EMRI data with deltaT: each sample has the amplitude and the phase of splines through those of the selected samples, and the geodesic eccentricity is a
    spline through the absolute values of that of the same samples. *)
Theorem C91_emri : forall (S : sources) fuel u data q, snd (load_waveform S fuel "EMRI" u) = Ok data -> asked "EMRI" u "deltaT" (Some (ANum q)) ->
  exists path tm h s e i j t z w hw A P, asked "EMRI" u "filepath" (Some (AStr path)) /\ emri_times S path tm h /\ asked "EMRI" u "start_time" s /\ asked "EMRI" u "end_time" e /\
    sample_for tm s 0 i /\ sample_for tm e (length tm - 1) j /\ between i j tm w /\ between i j h hw /\ holds data "t" (DTime t) /\ holds data "hlm" (DModes [((2, 2)%Z, z)]) /\
    (length h = length tm ->
     spline_of S w (map (fun c => so_sqrt S (fst c * fst c + snd c * snd c)%Q) hw) A /\ spline_of S w (so_phase S hw) P /\ polar S A P t z) /\
    (wanted "EMRI" u "include_geodesic_ecc" -> exists base ec ew E, without_last 3 path base /\ so_emri_ecc S (base ++ "_ecc.h5") = Ok ec /\ holds data "e_geodesic" (DReal (map E t)) /\
       (length ec = length tm -> between i j ec ew /\ spline_of S w (map Qabs ew) E)).
Proof. exact emri_values. Qed.
Print Assumptions C91_emri.
Example C91_emri_ex : wanted "EMRI" emri_step "include_geodesic_ecc" /\ exists d, loads 5 "EMRI" emri_step d /\ times d "t" (grid_of (-7) 2 4).
Proof. split; [exists yes; split; reflexivity|exact run_emri_step]. Qed.

(** C91.  The params_dict of LVCNR files holds the mass ratio, spins, eccentricity and mean anomaly of the file. *)
Theorem C91_params : forall (S : sources) fuel o u data, In o ["LVCNR"; "LVCNR_hack"] -> snd (load_waveform S fuel o u) = Ok data -> wanted o u "include_params_dict" ->
  exists q c1 c2 ecc ano, binary S o u q c1 c2 /\ file_params S o u ecc ano /\
    holds data "params_dict" (DParams [("q", Some (ANum q)); ("chi1", Some (AVec c1)); ("chi2", Some (AVec c2)); ("ecc", ecc); ("mean_ano", ano)]).
Proof. exact lvcnr_params. Qed.
Print Assumptions C91_params.
Example C91_params_ex : wanted "LVCNR_hack" hack_long "include_params_dict" /\ exists d, loads 5 "LVCNR_hack" hack_long d.
Proof. split; [exists yes; split; reflexivity|]. destruct run_long as (d & H & _). eauto. Qed.

(** C92.  The quasi-circular counterpart of numerical data is warned of exactly if the first one generated starts at least twice as early as the numerical data,
    or if at least two retries were needed. *)
Theorem C92_warned : forall (S : sources) fuel o u data, In o numerical -> snd (load_waveform S fuel o u) = Ok data -> wanted o u "include_zero_ecc" ->
  exists q c1 c2 ap ma t d tm t0 z1 z2 f0 n tf df, binary S o u q c1 c2 /\ asked o u "zero_ecc_approximant" (Some (AStr ap)) /\ holds data "t" (DTime t) /\
    peak_time S t d = Ok tm /\ starts t t0 /\ nth_error c1 2 = Some z1 /\ nth_error c2 2 = Some z2 /\
    so_freq S ((tm - t0) * (10 * so_mtsun S))%Q (q * 10 / (1 + q) * so_msun S)%Q (10 / (1 + q) * so_msun S)%Q z1 z2 = Ok f0 /\
    let om := (f0 * (10 * so_mtsun S) * np_pi)%Q in let log := fst (load_waveform S fuel o u) in
    generates S (nr_circular ap q c1 c2 ma om) tf df /\ least_tries S (fun m => nr_circular ap q c1 c2 ma (tries (1 # 2) om m)) t0 n /\
    (In "zeroecc waveform is too long" log <-> exists z0, starts tf z0 /\ (z0 <= 2 * t0)%Q) /\ (In "too many tries" log <-> 2 <= n).
Proof. exact circle_warned. Qed.
Print Assumptions C92_warned.
Example C92_warned_ex : wanted "LVCNR_hack" hack_long "include_zero_ecc" /\ exists d, loads 5 "LVCNR_hack" hack_long d /\ In "zeroecc waveform is too long" (fst (load_waveform toy 5 "LVCNR_hack" hack_long)).
Proof. split; [exists yes; split; reflexivity|exact run_long]. Qed.

(** C92.  Without include_zero_ecc there is no such warning. *)
Theorem C92_silent : forall (S : sources) fuel o u data, In o numerical -> snd (load_waveform S fuel o u) = Ok data -> ~ wanted o u "include_zero_ecc" -> forall x, In x circle_warnings -> ~ In x (fst (load_waveform S fuel o u)).
Proof. exact circle_silent. Qed.
Print Assumptions C92_silent.
Example C92_silent_ex : ~ wanted "SXSCatalog" sxs_two "include_zero_ecc" /\ exists d, loads 5 "SXSCatalog" sxs_two d.
Proof. split; [intros (v & A & W); vm_compute in A; injection A as <-; discriminate W|]. destruct run_two_modes as (d & H & _). eauto. Qed.

(** C92.  Loading from any other origin never warns. *)
Theorem C92_others : forall (S : sources) fuel o u, ~ In o numerical -> fst (load_waveform S fuel o u) = [].
Proof. exact others_silent. Qed.
Print Assumptions C92_others.
Example C92_others_ex : ~ In "LAL" numerical.
Proof. cbn. intuition discriminate. Qed.
