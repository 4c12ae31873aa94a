(** Properties of loading waveforms: keywords (C78), the mean anomaly (C79), generated waveforms and their quasi-circular counterparts (C80, C81, C82),
    numerical ones (C83, C84, C85, C86, C90), EMRI (C87) and EOB (C88) files. *)
From Coq Require Import Qabs.
From Verif Require Import Base BaseLemmas UtilsModel UtilsSpec MeasureModel DataModel HelperModel HelperSpec LoadModel LoadSpec LoadLemmas LoadKeys LoadLAL LoadZero LoadSpins LoadClaims LoadOther
  LoadToy LoadRuns LoadCases.
Open Scope string_scope.
Open Scope nat_scope.

(** C78.  The defaults that the package gives for an origin are the published ones. *)
Theorem C78_published : forall o, In o origins -> get_load_waveform_defaults o = Ok (published o).
Proof. exact defaults_published. Qed.
Print Assumptions C78_published.
Example C78_published_ex : In "EMRI" origins /\ get_load_waveform_defaults "EMRI" = Ok [("filepath", None); ("include_zero_ecc", no); ("filepath_zero_ecc", None); ("start_time", None); ("end_time", None); ("deltaT", None); ("include_geodesic_ecc", no)].
Proof. split; [cbn; tauto|reflexivity]. Qed.
(** C78.  Any other origin than the seven documented ones is refused, and so is the question for its defaults. *)
Theorem C78_origins : forall (S : sources) fuel o kw, ~ In o origins -> load_waveform S fuel o kw = ([], Err GenericException) /\ get_load_waveform_defaults o = Err GenericException.
Proof. exact unknown_origin. Qed.
Print Assumptions C78_origins.
Example C78_origins_ex : ~ In "SXS" origins.
Proof. cbn. intuition discriminate. Qed.
(** C78.  A keyword outside the published ones of the origin raises ValueError; nothing is loaded or warned of before. *)
Theorem C78_unknown_keyword : forall (S : sources) fuel o kw k, In o origins -> In k (dkeys kw) -> ~ In k (dkeys (published o)) -> load_waveform S fuel o kw = ([], Err ValueError).
Proof. exact unknown_key. Qed.
Print Assumptions C78_unknown_keyword.
Example C78_unknown_keyword_ex : load_waveform toy 5 "EOB" (eob_kw [("start_time", Some (ANum 0))]) = ([], Err ValueError) /\ ~ In "start_time" (dkeys (published "EOB")).
Proof. split; [vm_compute; reflexivity|cbn; intuition discriminate]. Qed.
(** C78.  A keyword left out behaves as if it were given its published default. *)
Theorem C78_defaults : forall (S : sources) fuel o kw k v, slookup kw k = None -> slookup (published o) k = Some v ->
  load_waveform S fuel o (kw ++ [(k, v)])%list = load_waveform S fuel o kw.
Proof. exact default_given. Qed.
Print Assumptions C78_defaults.
Example C78_defaults_ex : slookup lal_kw "physicalUnits" = None /\ slookup (published "LAL") "physicalUnits" = Some no /\ exists d, loads 5 "LAL" lal_kw d.
Proof. split; [reflexivity|]. split; [reflexivity|]. destruct run_lal as (d & H & _). eauto. Qed.
(** C78.  The order of the keywords does not matter. *)
Theorem C78_order : forall (S : sources) fuel o a b, same_keywords a b -> load_waveform S fuel o a = load_waveform S fuel o b.
Proof. exact order_irrelevant. Qed.
Print Assumptions C78_order.
Example C78_order_ex : same_keywords [("filepath", Some (AStr "a")); ("include_zero_ecc", yes)] [("include_zero_ecc", yes); ("filepath", Some (AStr "a"))].
Proof. intros k. cbn. destruct (String.eqb_spec k "filepath") as [E|]; destruct (String.eqb_spec k "include_zero_ecc") as [F|]; try reflexivity; congruence. Qed.
(** C78.  With origin LAL the seven parameters of the waveform are required. *)
Theorem C78_required_lal : forall (S : sources) fuel kw k, (forall k, In k (dkeys kw) -> In k (dkeys (published "LAL"))) -> In k lal_required -> asked "LAL" kw k None ->
  load_waveform S fuel "LAL" kw = ([], Err GenericException).
Proof. exact required_lal. Qed.
Print Assumptions C78_required_lal.
Example C78_required_lal_ex : asked "LAL" (sset lal_kw "ecc" None) "ecc" None /\ load_waveform toy 5 "LAL" (sset lal_kw "ecc" None) = ([], Err GenericException).
Proof. split; [reflexivity|vm_compute; reflexivity]. Qed.
(** C78.  For the other origins the path is required: data_dir for SXS data, else filepath. *)
Theorem C78_required_path : forall (S : sources) fuel o kw, (forall k, In k (dkeys kw) -> In k (dkeys (published o))) ->
  In o origins -> o <> "LAL" -> asked o kw (if String.eqb o "SXSCatalog" || String.eqb o "SXSCatalog_old" then "data_dir" else "filepath") None ->
  exists e, snd (load_waveform S fuel o kw) = Err e.
Proof. exact path_required. Qed.
Print Assumptions C78_required_path.
Example C78_required_path_ex : asked "EMRI" [] "filepath" None /\ asked "SXSCatalog" [("filepath", None)] "data_dir" None.
Proof. split; reflexivity. Qed.
(** C79, finding.  The initial mean anomaly does not change anything, although it is required. *)
Theorem C79_mean_anomaly : forall (S : sources) fuel kw a b, load_waveform S fuel "LAL" (sset kw "mean_ano" (Some a)) = load_waveform S fuel "LAL" (sset kw "mean_ano" (Some b)).
Proof. exact mean_ano_ignored. Qed.
Print Assumptions C79_mean_anomaly.
Example C79_mean_anomaly_ex : load_waveform toy 5 "LAL" (sset lal_kw "mean_ano" None) = ([], Err GenericException) /\ exists d, loads 5 "LAL" (sset lal_kw "mean_ano" (Some (ANum 0))) d.
Proof. split; [vm_compute; reflexivity|]. destruct run_lal as (d & H & _). exists d. exact H. Qed.
(** C80.  Generated data: one sample of the (2,2) mode per time, uniform times with the requested step, in seconds for physical units, and the merger at t = 0. *)
Theorem C80_shape : forall (S : sources) fuel u data, snd (load_waveform S fuel "LAL" u) = Ok data ->
  exists t d ph dt M D m dist, holds data "t" (DTime t) /\ holds data "hlm" (DModes d) /\ map fst d = [(2, 2)%Z] /\ fits t d /\
    asked "LAL" u "physicalUnits" ph /\ asked "LAL" u "deltaTOverM" (Some (ANum dt)) /\ asked "LAL" u "M" M /\ asked "LAL" u "D" D /\
    (if counts ph then M = Some (ANum m) /\ D = Some (ANum dist) else m = 10%Q /\ dist = 1%Q) /\
    let step := (if counts ph then dt * (m * so_mtsun S) else dt)%Q in
    uniform step t /\ ((0 < step)%Q -> merger_at_zero S t d).
Proof. exact lal_shape. Qed.
Print Assumptions C80_shape.
Example C80_shape_ex : (exists d, loads 5 "LAL" lal_kw d /\ times d "t" (grid_of (-17) 1 20)) /\ exists d, loads 5 "LAL" si_kw d /\ times d "t" (grid_of (-340) 20 20).
Proof. exact (conj run_lal run_si). Qed.
(** C80.  The library is asked for the waveform with exactly the given parameters, and the mode is its strain times a constant. *)
Theorem C80_call : forall (S : sources) fuel u data t d, snd (load_waveform S fuel "LAL" u) = Ok data -> holds data "t" (DTime t) -> holds data "hlm" (DModes d) -> sane S ->
  exists a q c1 c2 ecc om dt ph M D m dist c raw h z1 z2, asked "LAL" u "approximant" (Some (AStr a)) /\ asked "LAL" u "q" (Some (ANum q)) /\
    asked "LAL" u "chi1" (Some (AVec c1)) /\ asked "LAL" u "chi2" (Some (AVec c2)) /\ asked "LAL" u "ecc" (Some (ANum ecc)) /\
    asked "LAL" u "Momega0" (Some (ANum om)) /\ asked "LAL" u "deltaTOverM" (Some (ANum dt)) /\ asked "LAL" u "physicalUnits" ph /\ asked "LAL" u "M" M /\ asked "LAL" u "D" D /\
    (if counts ph then M = Some (ANum m) /\ D = Some (ANum dist) else m = 10%Q /\ dist = 1%Q) /\
    nth_error c1 2 = Some z1 /\ nth_error c2 2 = Some z2 /\ mode_of d (2, 2)%Z h /\ so_td S c = Ok raw /\
    (~ (1 + q == 0)%Q -> ~ (m == 0)%Q -> call_for S a q z1 z2 ecc om dt m dist c) /\
    rescaled (if counts ph then / so_ylm S else dist * 1000000 * so_pc S / (m * so_mtsun S * so_c S) / so_ylm S)%Q raw h.
Proof. exact lal_call. Qed.
Print Assumptions C80_call.
Example C80_call_ex : sane toy /\ exists d, loads 5 "LAL" lal_kw d.
Proof. split; [repeat split; try reflexivity; discriminate|]. destruct run_lal as (d & H & _). eauto. Qed.
(** C81.  With include_zero_ecc the result also holds the waveform of the same parameters without eccentricity.  It starts no later than
    the eccentric one, and it is the first of the waveforms at starting frequencies Momega0, 0.9 Momega0, ... that does. *)
Theorem C81_counterpart : forall (S : sources) fuel u data, snd (load_waveform S fuel "LAL" u) = Ok data -> wanted "LAL" u "include_zero_ecc" ->
  exists a om t d tz dz t0 n, asked "LAL" u "approximant" (Some (AStr a)) /\ asked "LAL" u "Momega0" (Some (ANum om)) /\
    holds data "t" (DTime t) /\ holds data "hlm" (DModes d) /\ holds data "t_zeroecc" (DTime tz) /\ holds data "hlm_zeroecc" (DModes dz) /\
    starts t t0 /\ no_later tz t0 /\ generates S (circular u (zero_for a) (tries (9 # 10) om n)) tz dz /\
    forall m, m < n -> exists tm dm, generates S (circular u (zero_for a) (tries (9 # 10) om m)) tm dm /\ later tm t0.
Proof. exact zero_found. Qed.
Print Assumptions C81_counterpart.
Example C81_counterpart_ex : wanted "LAL" circ_kw "include_zero_ecc" /\ exists d, loads 5 "LAL" circ_kw d /\ times d "t" (grid_of (-17) 1 20) /\ times d "t_zeroecc" (grid_of (-37) 1 40).
Proof. split; [exists yes; split; reflexivity|]. exact run_circ. Qed.
(** C81.  If one of these waveforms starts early enough and all those before it can be generated, the call ends with the first such one.
    Its loop needs n turns. *)
Theorem C81_ends : forall (S : sources) fuel u a om t d t0 n tz dz, wanted "LAL" u "include_zero_ecc" -> asked "LAL" u "approximant" (Some (AStr a)) -> asked "LAL" u "Momega0" (Some (ANum om)) ->
  generates S (sset u "include_zero_ecc" (Some (ABool false))) t d -> starts t t0 -> n <= fuel ->
  (forall m, m < n -> exists tm dm, generates S (circular u (zero_for a) (tries (9 # 10) om m)) tm dm /\ later tm t0) ->
  generates S (circular u (zero_for a) (tries (9 # 10) om n)) tz dz -> no_later tz t0 ->
  snd (load_waveform S fuel "LAL" u) = Ok [("t", DTime t); ("hlm", DModes d); ("t_zeroecc", DTime tz); ("hlm_zeroecc", DModes dz)].
Proof. exact zero_ends. Qed.
Print Assumptions C81_ends.
Example C81_ends_ex : wanted "LAL" circ_kw "include_zero_ecc" /\ exists t d t0 tz dz, generates toy circ_off t d /\ starts t t0 /\
  (forall m, m < 1 -> exists tm dm, generates toy (circ_try m) tm dm /\ later tm t0) /\ generates toy (circ_try 1) tz dz /\ no_later tz t0.
Proof. split; [exists yes; split; reflexivity|]. exact circ_case. Qed.
(** C82.  Spins with more than 1e-5 in the orbital plane, longer than 1 or without three components are refused. *)
Theorem C82_refused : forall (S : sources) fuel u k c, k = "chi1" \/ k = "chi2" -> asked "LAL" u k (Some (AVec c)) -> bad_spin c ->
  exists e, snd (load_waveform S fuel "LAL" u) = Err e.
Proof. exact spins_refused. Qed.
Print Assumptions C82_refused.
Example C82_refused_ex : bad_spin [2 # 100000; 0; 0]%Q /\ bad_spin [0; 0; -101 # 100]%Q /\ bad_spin [0; 0]%Q.
Proof. split; [|split]; [right; do 3 eexists; split; [reflexivity|left; reflexivity]|right; do 3 eexists; split; [reflexivity|right; reflexivity]|left; discriminate]. Qed.
(** C82.  Smaller components in the plane are replaced by zero. *)
Theorem C82_small : forall (S : sources) fuel u k x y z, k = "chi1" \/ k = "chi2" -> nearly_aligned x y ->
  load_waveform S fuel "LAL" (sset u k (Some (AVec [x; y; z]))) = load_waveform S fuel "LAL" (sset u k (Some (AVec [0%Q; 0%Q; z]))).
Proof. exact spins_small. Qed.
Print Assumptions C82_small.
Example C82_small_ex : nearly_aligned (1 # 200000) (-1 # 300000).
Proof. split; [reflexivity|discriminate]. Qed.
(** C82.  The quasi-circular counterpart of a numerical waveform of a precessing binary cannot be loaded. *)
Theorem C82_precessing : forall (S : sources) fuel o u q c1 c2, In o numerical -> wanted o u "include_zero_ecc" -> binary S o u q c1 c2 -> bad_spin c1 \/ bad_spin c2 ->
  exists e, snd (load_waveform S fuel o u) = Err e.
Proof. exact precessing_refused. Qed.
Print Assumptions C82_precessing.
Example C82_precessing_ex : binary toy "SXSCatalog" (sxs_kw "c" [("include_zero_ecc", yes)]) 2 [1 # 2; 0; 0]%Q [0; 0; 0]%Q /\ bad_spin [1 # 2; 0; 0]%Q /\
  load_waveform toy 5 "SXSCatalog" (sxs_kw "c" [("include_zero_ecc", yes)]) = (["no Horizons.h5"], Err GenericException).
Proof. split; [left; split; [left; reflexivity|]; exists "c", (toy_metadata "c"); do 2 (split; [reflexivity|]); split; [split; [discriminate|left; split; [discriminate|reflexivity]]|split; reflexivity]|].
  split; [right; do 3 eexists; split; [reflexivity|left; reflexivity]|vm_compute; reflexivity]. Qed.
(** C83.  The quasi-circular data of a numerical waveform is that of the same masses and spins, generated with the requested approximant
    from the frequency that the library estimates for the length of the numerical data, halved as few times as are needed for the generated data to start
    no later.  Samples are dropped from its beginning: up to ten before the one nearest to the start of the numerical data; if there are only
    i < 10 of these, all but the last 10 - i samples. *)
Theorem C83_counterpart : forall (S : sources) fuel o u data, In o numerical -> snd (load_waveform S fuel o u) = Ok data -> wanted o u "include_zero_ecc" ->
  exists q c1 c2 ap ma t d tz dz tm t0 z1 z2 f0 n tg dg i, binary S o u q c1 c2 /\ asked o u "zero_ecc_approximant" (Some (AStr ap)) /\
    holds data "t" (DTime t) /\ holds data "hlm" (DModes d) /\ holds data "t_zeroecc" (DTime tz) /\ holds data "hlm_zeroecc" (DModes dz) /\
    peak_time S t d = Ok tm /\ starts t t0 /\ nth_error c1 2 = Some z1 /\ nth_error c2 2 = Some z2 /\
    so_freq S ((tm - t0) * (10 * so_mtsun S))%Q (q * 10 / (1 + q) * so_msun S)%Q (10 / (1 + q) * so_msun S)%Q z1 z2 = Ok f0 /\
    let om := (f0 * (10 * so_mtsun S) * np_pi)%Q in
    generates S (nr_circular ap q c1 c2 ma (tries (1 # 2) om n)) tg dg /\ no_later tg t0 /\
    (forall m, m < n -> exists t' d', generates S (nr_circular ap q c1 c2 ma (tries (1 # 2) om m)) t' d' /\ later t' t0) /\
    nearest tg t0 i /\ without_first (if 10 <=? i then i - 10 else length tg - (10 - i)) tg dg tz dz.
Proof. exact counterpart. Qed.
Print Assumptions C83_counterpart.
Example C83_counterpart_ex : wanted "SXSCatalog" sxs_all "include_zero_ecc" /\ exists d, loads 5 "SXSCatalog" sxs_all d /\ times d "t" (grid_of (-12) 1 15) /\ times d "t_zeroecc" (grid_of (-13) (1 # 10) 133).
Proof. split; [exists yes; split; reflexivity|]. exact run_sxs. Qed.
(** C83.  It starts no later than the numerical data if the generated waveform has ten samples before that. *)
Theorem C83_covers : forall (S : sources) fuel o u data, In o numerical -> snd (load_waveform S fuel o u) = Ok data -> wanted o u "include_zero_ecc" ->
  exists q c1 c2 ap ma om t t0 tz dz tg dg, binary S o u q c1 c2 /\ holds data "t" (DTime t) /\ starts t t0 /\ holds data "t_zeroecc" (DTime tz) /\ holds data "hlm_zeroecc" (DModes dz) /\
    generates S (nr_circular ap q c1 c2 ma om) tg dg /\ no_later tg t0 /\
    ((exists x, nth_error tg 10 = Some x /\ (x <= t0)%Q) -> no_later tz t0 /\ exists k, without_first k tg dg tz dz /\ merger_at_zero S tg dg) /\
    uniform (1 # 10) tz.
Proof. exact covers. Qed.
Print Assumptions C83_covers.
Example C83_covers_ex : wanted "SXSCatalog" sxs_all "include_zero_ecc" /\ exists d, loads 5 "SXSCatalog" sxs_all d /\ times d "t" (grid_of (-12) 1 15) /\ times d "t_zeroecc" (grid_of (-13) (1 # 10) 133).
Proof. split; [exists yes; split; reflexivity|]. exact run_sxs. Qed.
(** C83, finding.  Without that it may start later. *)
Theorem C83_refuted : exists S fuel o u data t t0 tz, In o numerical /\ snd (load_waveform S fuel o u) = Ok data /\ wanted o u "include_zero_ecc" /\
  holds data "t" (DTime t) /\ starts t t0 /\ holds data "t_zeroecc" (DTime tz) /\ later tz t0.
Proof. exact near_later. Qed.
Print Assumptions C83_refuted.
Example C83_refuted_ex : exists d, loads 5 "SXSCatalog" sxs_near d /\ times d "t" (grid_of (-12) 1 15) /\ times d "t_zeroecc" (grid_of (-1 # 2) (1 # 10) 8).
Proof. exact run_near. Qed.
(** C84.  The mass ratio given in params_dict is m1 / m2 of the metadata, or 1 if that is slightly below 1; the spins are those of the metadata. *)
Theorem C84_ratio : forall (S : sources) fuel o u data, In o ["SXSCatalog"; "SXSCatalog_old"] -> snd (load_waveform S fuel o u) = Ok data -> wanted o u "include_params_dict" ->
  exists dir m q p, asked o u "data_dir" (Some (AStr dir)) /\ metadata_of S dir m /\ mass_ratio m q /\ (1 <= q)%Q /\ holds data "params_dict" (DParams p) /\
    slookup p "q" = Some (Some (ANum q)) /\ slookup p "chi1" = Some (Some (AVec (md_chi1 m))) /\ slookup p "chi2" = Some (Some (AVec (md_chi2 m))).
Proof. exact metadata_ratio. Qed.
Print Assumptions C84_ratio.
Example C84_ratio_ex : wanted "SXSCatalog" sxs_low "include_params_dict" /\ exists d, loads 5 "SXSCatalog" sxs_low d.
Proof. split; [exists yes; split; reflexivity|exact run_low]. Qed.
(** C84.  A smaller mass ratio raises. *)
Theorem C84_refused : forall (S : sources) fuel o u dir m, In o ["SXSCatalog"; "SXSCatalog_old"] -> wanted o u "include_params_dict" \/ wanted o u "include_zero_ecc" ->
  asked o u "data_dir" (Some (AStr dir)) -> metadata_of S dir m -> (md_m2 m == 0 \/ md_m1 m / md_m2 m <= 1 - (5 # 10000))%Q ->
  exists e, snd (load_waveform S fuel o u) = Err e.
Proof. exact ratio_refused. Qed.
Print Assumptions C84_refused.
Example C84_refused_ex : wanted "SXSCatalog" (sxs_kw "e" [("include_params_dict", yes)]) "include_params_dict" /\ metadata_of toy "e" (toy_metadata "e") /\ (md_m1 (toy_metadata "e") / md_m2 (toy_metadata "e") <= 1 - (5 # 10000))%Q.
Proof. split; [exists yes; split; reflexivity|]. split; [reflexivity|discriminate]. Qed.
(** C84.  A mass ratio below 1 is warned of. *)
Theorem C84_warned : forall (S : sources) fuel o u data dir m, In o ["SXSCatalog"; "SXSCatalog_old"] -> snd (load_waveform S fuel o u) = Ok data -> wanted o u "include_params_dict" \/ wanted o u "include_zero_ecc" ->
  asked o u "data_dir" (Some (AStr dir)) -> metadata_of S dir m -> (md_m1 m / md_m2 m < 1)%Q -> In "m1 < m2" (fst (load_waveform S fuel o u)).
Proof. exact ratio_warned. Qed.
Print Assumptions C84_warned.
Example C84_warned_ex : metadata_of toy "d" (toy_metadata "d") /\ (md_m1 (toy_metadata "d") / md_m2 (toy_metadata "d") < 1)%Q /\ In "m1 < m2" (fst (load_waveform toy 5 "SXSCatalog" sxs_low)) /\ exists d, loads 5 "SXSCatalog" sxs_low d.
Proof. split; [reflexivity|]. split; [reflexivity|]. split; [vm_compute; tauto|exact run_low]. Qed.
(** C85.  A missing directory or needed file raises FileNotFoundError. *)
Theorem C85_missing : forall (S : sources) fuel o u dir, In o ["SXSCatalog"; "SXSCatalog_old"] -> (forall k, In k (dkeys u) -> In k (dkeys (published o))) -> asked o u "data_dir" (Some (AStr dir)) ->
  so_dir S dir = false \/ (exists f, needs o u f /\ so_exists S dir f = false) -> snd (load_waveform S fuel o u) = Err FileNotFoundError.
Proof. exact (fun S fuel o u dir I K => missing_file S fuel o u dir I (known_of o u K)). Qed.
Print Assumptions C85_missing.
Example C85_missing_ex : needs "SXSCatalog_old" old_all FMetaTxt /\ load_waveform toy 5 "SXSCatalog" (sxs_kw "nowhere" []) = ([], Err FileNotFoundError) /\ load_waveform toy 5 "SXSCatalog_old" (sxs_kw "a" []) = ([], Err FileNotFoundError).
Proof. split; [right; split; [reflexivity|right; exists yes; split; reflexivity]|]. split; vm_compute; reflexivity. Qed.
(** C85.  A missing Horizons.h5 is warned of, and the data is loaded. *)
Theorem C85_horizons : forall (S : sources) fuel o u data dir, In o ["SXSCatalog"; "SXSCatalog_old"] -> snd (load_waveform S fuel o u) = Ok data -> asked o u "data_dir" (Some (AStr dir)) ->
  so_exists S dir FHorizons = false -> In "no Horizons.h5" (fst (load_waveform S fuel o u)).
Proof. exact no_horizons. Qed.
Print Assumptions C85_horizons.
Example C85_horizons_ex : so_exists toy "a" FHorizons = false /\ exists d, loads 5 "SXSCatalog" sxs_two d.
Proof. split; [reflexivity|]. destruct run_two_modes as (d & H & _). eauto. Qed.
(** C86.  The keys of loaded data: t and hlm, and the optional ones exactly if their option is on. *)
Theorem C86_keys : forall (S : sources) fuel o u data, In o origins -> snd (load_waveform S fuel o u) = Ok data -> keys_of o u data (optional_keys o).
Proof. exact all_keys. Qed.
Print Assumptions C86_keys.
Example C86_keys_ex : (exists d, loads 5 "EMRI" emri_all d) /\ (exists d, loads 5 "LAL" lal_kw d) /\ exists d, loads 5 "LVCNR_hack" (nr_kw []) d.
Proof. split; [destruct run_emri as (d & H & _); eauto|]. split; [destruct run_lal as (d & H & _); eauto|]. destruct run_hack as (d & H & _). eauto. Qed.
(** C86.  SXS data: exactly the requested modes, one value per time, uniform times with the requested step, and the merger at t = 0. *)
Theorem C86_sxs : forall (S : sources) fuel o u data, In o ["SXSCatalog"; "SXSCatalog_old"] -> snd (load_waveform S fuel o u) = Ok data ->
  exists t d l dt, holds data "t" (DTime t) /\ holds data "hlm" (DModes d) /\ asked o u "mode_array" (Some (AModes l)) /\ asked o u "deltaTOverM" (Some (ANum dt)) /\
    (forall lm, In lm (map fst d) <-> In lm l) /\ fits t d /\ uniform dt t /\ ((0 < dt)%Q -> merger_at_zero S t d).
Proof. exact sxs_data. Qed.
Print Assumptions C86_sxs.
Example C86_sxs_ex : exists d, loads 5 "SXSCatalog" sxs_two d /\ times d "t" (grid_of (-24) 1 27).
Proof. exact run_two_modes. Qed.
(** C86.  The values of SXS modes are those of splines through the data of the files, for the catalog without memory unless it is to be kept, on
    a grid that starts where the data starts; then the requested orbits of junk are removed, and the times shifted. *)
Theorem C86_sxs_values : forall (S : sources) (latest : bool) fuel u data, let o := if latest then "SXSCatalog" else "SXSCatalog_old" in snd (load_waveform S fuel o u) = Ok data ->
  exists t d dir order l orbits time grid d1 i t1, holds data "t" (DTime t) /\ holds data "hlm" (DModes d) /\ asked o u "data_dir" (Some (AStr dir)) /\ asked o u "extrap_order" order /\
    asked o u "mode_array" (Some (AModes l)) /\ asked o u "num_orbits_to_remove_as_junk" (Some (ANum orbits)) /\ (forall x, starts grid x -> starts time x) /\
    (forall lm h1, In (lm, h1) d1 -> exists h, (if latest then catalog_mode S u dir order lm time h else old_mode S dir order l lm time h) /\ interpolated S time h grid h1) /\
    junk S dir grid d1 orbits i /\ without_first i grid d1 t1 d /\ shifted t1 t.
Proof. exact sxs_values. Qed.
Print Assumptions C86_sxs_values.
Example C86_sxs_values_ex : (exists d, loads 5 "SXSCatalog" sxs_two d) /\ exists d, loads 5 "SXSCatalog_old" old_all d.
Proof. split; [destruct run_two_modes as (d & H & _); eauto|destruct run_old as (d & H & _); eauto]. Qed.
(** C86.  LVCNR data: one value per time, uniform times with the requested step; before the removal of junk the merger is at t = 0. *)
Theorem C86_lvcnr : forall (S : sources) fuel u data, snd (load_waveform S fuel "LVCNR" u) = Ok data -> (0 < so_mtsun S)%Q ->
  exists t d dt t1 d1 i, holds data "t" (DTime t) /\ holds data "hlm" (DModes d) /\ asked "LVCNR" u "deltaTOverM" (Some (ANum dt)) /\
    fits t d /\ uniform dt t /\ without_first i t1 d1 t d /\ ((0 < dt)%Q -> merger_at_zero S t1 d1).
Proof. exact lvcnr_data. Qed.
Print Assumptions C86_lvcnr.
Example C86_lvcnr_ex : (0 < so_mtsun toy)%Q /\ exists d, loads 5 "LVCNR" (nr_kw []) d /\ times d "t" (grid_of (-12) 1 16).
Proof. split; [reflexivity|exact run_lvcnr]. Qed.
(** C86.  LVCNR_hack data: one value of the (2,2) mode per time, uniform times with the requested step, on a grid that starts where both amplitude
    and phase are known. *)
Theorem C86_hack : forall (S : sources) fuel u data, snd (load_waveform S fuel "LVCNR_hack" u) = Ok data ->
  exists t d dt path f grid i, holds data "t" (DTime t) /\ holds data "hlm" (DModes d) /\ asked "LVCNR_hack" u "deltaTOverM" (Some (ANum dt)) /\
    asked "LVCNR_hack" u "filepath" (Some (AStr path)) /\ so_raw S path = Ok f /\ map fst d = [(2, 2)%Z] /\ fits t d /\ uniform dt t /\ t = skipn i grid /\
    forall x, starts grid x -> exists a p, starts (ra_t_amp f) a /\ starts (ra_t_phase f) p /\ (x = a \/ x = p) /\ (a <= x)%Q /\ (p <= x)%Q.
Proof. exact hack_data. Qed.
Print Assumptions C86_hack.
Example C86_hack_ex : exists d, loads 5 "LVCNR_hack" (nr_kw []) d /\ times d "t" (grid_of 25 1 15).
Proof. exact run_hack. Qed.
(** C86, finding.  The merger of LVCNR_hack data is not at t = 0. *)
Theorem C86_hack_merger_refuted : exists S fuel u data dt t d, snd (load_waveform S fuel "LVCNR_hack" u) = Ok data /\ asked "LVCNR_hack" u "deltaTOverM" (Some (ANum dt)) /\ (0 < dt)%Q /\
  holds data "t" (DTime t) /\ holds data "hlm" (DModes d) /\ ~ merger_at_zero S t d.
Proof. exact hack_merger. Qed.
Print Assumptions C86_hack_merger_refuted.
(** C87.  start_time and end_time select the samples from the nearest to start_time up to, but not including, the nearest to end_time, with times
    measured from the maximum of the amplitude, and the same samples of the geodesic eccentricity; deltaT gives a uniform grid inside that window. *)
Theorem C87_window : forall (S : sources) fuel u data, snd (load_waveform S fuel "EMRI" u) = Ok data ->
  exists path tm h s e t d i j w, asked "EMRI" u "filepath" (Some (AStr path)) /\ emri_times S path tm h /\ asked "EMRI" u "start_time" s /\ asked "EMRI" u "end_time" e /\
    holds data "t" (DTime t) /\ holds data "hlm" (DModes d) /\ sample_for tm s 0 i /\ sample_for tm e (length tm - 1) j /\ between i j tm w /\
    (length h = length tm ->
     (asked "EMRI" u "deltaT" None -> t = w /\ (exists h', d = [((2, 2)%Z, h')] /\ between i j h h') /\
       (wanted "EMRI" u "include_geodesic_ecc" -> exists base ec r, without_last 3 path base /\ so_emri_ecc S (base ++ "_ecc.h5") = Ok ec /\ holds data "e_geodesic" (DReal r) /\ (length ec = length tm -> between i j ec r))) /\
     (forall q, asked "EMRI" u "deltaT" (Some (ANum q)) -> uniform q t /\ (forall x, starts t x -> starts w x) /\ (forall x, In x t -> exists b, nth_error w (length w - 1) = Some b /\ (x <= b)%Q))).
Proof. exact emri_window. Qed.
Print Assumptions C87_window.
Example C87_window_ex : (exists d, loads 5 "EMRI" emri_all d /\ times d "t" (grid_of (-5) 1 6) /\ times d "t_zeroecc" (grid_of (-7) 1 9)) /\
  exists d, loads 5 "EMRI" emri_step d /\ times d "t" (grid_of (-7) 2 4).
Proof. exact (conj run_emri run_emri_step). Qed.
(** C87.  The quasi-circular EMRI data is read from the given file or from the one whose name is derived from the eccentric one, all of it but the
    last sample, rescaled by 1 / sqrt(2 pi). *)
Theorem C87_zeroecc : forall (S : sources) fuel u data, snd (load_waveform S fuel "EMRI" u) = Ok data -> wanted "EMRI" u "include_zero_ecc" ->
  exists path zv zp tm h tz dz hz, asked "EMRI" u "filepath" (Some (AStr path)) /\ asked "EMRI" u "filepath_zero_ecc" zv /\
    match zv with
    | Some v => v = AStr zp
    | None => (exists pre, first_occurrence "e0" path pre /\ zp = pre ++ "e0.000.h5") \/ (~ contains "e0" path /\ exists base, without_last 1 path base /\ zp = base ++ "e0.000.h5")
    end /\ emri_times S zp tm h /\
    holds data "t_zeroecc" (DTime tz) /\ holds data "hlm_zeroecc" (DModes [((2, 2)%Z, dz)]) /\ between 0 (length tm - 1) tm tz /\
    (length h = length tm -> between 0 (length tm - 1) h hz /\ rescaled (/ so_sqrt S (2 * np_pi))%Q hz dz).
Proof. exact emri_zero. Qed.
Print Assumptions C87_zeroecc.
Example C87_zeroecc_ex : wanted "EMRI" emri_all "include_zero_ecc" /\ exists d, loads 5 "EMRI" emri_all d.
Proof. split; [exists yes; split; reflexivity|]. destruct run_emri as (d & H & _). eauto. Qed.
(** C87, finding.  Without end_time the data does not stop at the maximum of the amplitude. *)
Theorem C87_end_refuted : exists S fuel u data t x, snd (load_waveform S fuel "EMRI" u) = Ok data /\ asked "EMRI" u "end_time" None /\ holds data "t" (DTime t) /\ In x t /\ (0 < x)%Q.
Proof. exact emri_beyond. Qed.
Print Assumptions C87_end_refuted.
(** C88.  EOB data is read from the given paths, of which the first contains EccTest, with the times measured from the maximum of the amplitude. *)
Theorem C88_eob : forall (S : sources) fuel u data, snd (load_waveform S fuel "EOB" u) = Ok data ->
  exists path t d, asked "EOB" u "filepath" (Some (AStr path)) /\ contains "EccTest" path /\ holds data "t" (DTime t) /\ holds data "hlm" (DModes d) /\ eob_data S path t d /\
    (wanted "EOB" u "include_zero_ecc" -> exists zp tz dz, asked "EOB" u "filepath_zero_ecc" (Some (AStr zp)) /\ holds data "t_zeroecc" (DTime tz) /\ holds data "hlm_zeroecc" (DModes dz) /\ eob_data S zp tz dz).
Proof. exact eob_ok. Qed.
Print Assumptions C88_eob.
Example C88_eob_ex : wanted "EOB" eob_all "include_zero_ecc" /\ exists d, loads 5 "EOB" eob_all d /\ times d "t" (grid_of (-7) 1 10) /\ times d "t_zeroecc" (grid_of (-7) 1 10).
Proof. split; [exists yes; split; reflexivity|exact run_eob]. Qed.
(** C88.  Any other path is refused. *)
Theorem C88_refused : forall (S : sources) fuel u path, (forall k, In k (dkeys u) -> In k (dkeys (published "EOB"))) -> asked "EOB" u "filepath" (Some (AStr path)) -> ~ contains "EccTest" path ->
  snd (load_waveform S fuel "EOB" u) = Err GenericException.
Proof. exact (fun S fuel u path K => eob_refused S fuel u path (known_of "EOB" u K)). Qed.
Print Assumptions C88_refused.
Example C88_refused_ex : ~ contains "EccTest" "x/Ecc_Test" /\ load_waveform toy 5 "EOB" [("filepath", Some (AStr "x/Ecc_Test"))] = ([], Err GenericException).
Proof. split; [|vm_compute; reflexivity]. intros X. apply occurs_contains in X; [vm_compute in X; discriminate X|discriminate]. Qed.
(** C88.  With include_zero_ecc the path of the quasi-circular file is required. *)
Theorem C88_zero_path : forall (S : sources) fuel u, wanted "EOB" u "include_zero_ecc" -> asked "EOB" u "filepath_zero_ecc" None -> exists e, snd (load_waveform S fuel "EOB" u) = Err e.
Proof. exact eob_zero_path. Qed.
Print Assumptions C88_zero_path.
Example C88_zero_path_ex : wanted "EOB" (eob_kw [("include_zero_ecc", yes)]) "include_zero_ecc" /\ asked "EOB" (eob_kw [("include_zero_ecc", yes)]) "filepath_zero_ecc" None.
Proof. split; [exists yes; split; reflexivity|reflexivity]. Qed.
(** C88.  Without include_zero_ecc that path is without effect. *)
Theorem C88_ignored : forall (S : sources) fuel u v, unwanted "EOB" u "include_zero_ecc" -> load_waveform S fuel "EOB" (sset u "filepath_zero_ecc" v) = load_waveform S fuel "EOB" u.
Proof. exact eob_zero_ignored. Qed.
Print Assumptions C88_ignored.
Example C88_ignored_ex : unwanted "EOB" (eob_kw []) "include_zero_ecc".
Proof. exists no. split; reflexivity. Qed.
(** C90, finding.  metadata_path never changes the result of loading SXS data. *)
Theorem C90_metadata_path : forall (S : sources) fuel o kw v, In o ["SXSCatalog"; "SXSCatalog_old"] ->
  load_waveform S fuel o (sset kw "metadata_path" v) = load_waveform S fuel o kw.
Proof. exact metadata_path_ignored. Qed.
Print Assumptions C90_metadata_path.
Example C90_metadata_path_ex : slookup (published "SXSCatalog") "metadata_path" = Some None /\ exists d, loads 5 "SXSCatalog" sxs_two d.
Proof. split; [reflexivity|]. destruct run_two_modes as (d & H & _). eauto. Qed.
(** C90, finding.  The step of the quasi-circular data of a numerical waveform is 0.1 whatever deltaTOverM is. *)
Theorem C90_step : forall (S : sources) fuel o u data, In o numerical -> snd (load_waveform S fuel o u) = Ok data -> wanted o u "include_zero_ecc" ->
  exists tz, holds data "t_zeroecc" (DTime tz) /\ uniform (1 # 10) tz.
Proof. exact zero_step. Qed.
Print Assumptions C90_step.
Example C90_step_ex : asked "SXSCatalog" sxs_all "deltaTOverM" (Some (ANum 1)) /\ exists d, loads 5 "SXSCatalog" sxs_all d /\ times d "t" (grid_of (-12) 1 15) /\ times d "t_zeroecc" (grid_of (-13) (1 # 10) 133).
Proof. split; [reflexivity|exact run_sxs]. Qed.
