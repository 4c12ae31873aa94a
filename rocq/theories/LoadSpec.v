(** Specification of loading waveforms. *)
From Coq Require Import Qabs.
From Verif Require Import Base UtilsModel UtilsSpec DataModel HelperModel HelperSpec LoadModel.
Open Scope string_scope.
Open Scope nat_scope.

(** ** Keywords *)
Definition origins : list string := ["LAL"; "SXSCatalog"; "SXSCatalog_old"; "LVCNR"; "LVCNR_hack"; "EOB"; "EMRI"].
(** origins with numerical waveforms *)
Definition numerical : list string := ["SXSCatalog"; "SXSCatalog_old"; "LVCNR"; "LVCNR_hack"].
(** The published keywords and defaults. *)
Definition no : option lv := Some (ABool false).
Definition tenth : option lv := Some (ANum (1 # 10)).
Definition published (origin : string) : lkwargs :=
  match origin with
  | "LAL" => [("approximant", None); ("q", None); ("chi1", None); ("chi2", None); ("ecc", None); ("mean_ano", None); ("Momega0", None);
              ("deltaTOverM", tenth); ("physicalUnits", no); ("M", None); ("D", None); ("include_zero_ecc", no)]
  | "SXSCatalog" => [("data_dir", None); ("metadata_path", None); ("deltaTOverM", tenth); ("include_zero_ecc", no); ("include_params_dict", no);
                     ("zero_ecc_approximant", Some (AStr "IMRPhenomT")); ("num_orbits_to_remove_as_junk", Some (ANum 2));
                     ("mode_array", Some (AModes [(2, 2)%Z])); ("extrap_order", Some (ANum 2)); ("keep_memory", no)]
  | "SXSCatalog_old" => [("data_dir", None); ("metadata_path", None); ("deltaTOverM", tenth); ("include_zero_ecc", no); ("include_params_dict", no);
                         ("zero_ecc_approximant", Some (AStr "IMRPhenomT")); ("num_orbits_to_remove_as_junk", Some (ANum 2));
                         ("mode_array", Some (AModes [(2, 2)%Z])); ("extrap_order", Some (ANum 2))]
  | "LVCNR" => [("filepath", None); ("deltaTOverM", tenth); ("Momega0", Some (ANum 0)); ("include_zero_ecc", no); ("include_params_dict", no);
                ("zero_ecc_approximant", Some (AStr "IMRPhenomT")); ("num_orbits_to_remove_as_junk", Some (ANum 2))]
  | "LVCNR_hack" => [("filepath", None); ("deltaTOverM", tenth); ("include_zero_ecc", no); ("include_params_dict", no);
                     ("zero_ecc_approximant", Some (AStr "IMRPhenomT")); ("num_orbits_to_remove_as_junk", Some (ANum 2))]
  | "EOB" => [("filepath", None); ("include_zero_ecc", no); ("filepath_zero_ecc", None)]
  | "EMRI" => [("filepath", None); ("include_zero_ecc", no); ("filepath_zero_ecc", None); ("start_time", None); ("end_time", None);
               ("deltaT", None); ("include_geodesic_ecc", no)]
  | _ => []
  end.
(** the value of a keyword: the caller's, else the published one *)
Definition asked (origin : string) (kw : lkwargs) (k : string) (v : option lv) : Prop := slookup (kw ++ published origin)%list k = Some v.
(** what Python counts as false: None, False, 0 and what is empty *)
Definition counts (v : option lv) : bool :=
  match v with
  | None => false | Some (ABool b) => b | Some (ANum q) => negb (Qeq_bool q 0) | Some (AStr s) => negb (String.eqb s "")
  | Some (AVec l) => negb (length l =? 0) | Some (AModes l) => negb (length l =? 0)
  end.
(** the option is on (off) *)
Definition wanted (origin : string) (kw : lkwargs) (k : string) : Prop := exists v, asked origin kw k v /\ counts v = true.
Definition unwanted (origin : string) (kw : lkwargs) (k : string) : Prop := exists v, asked origin kw k v /\ counts v = false.
(** the same keywords with the same values, in any order *)
Definition same_keywords (a b : lkwargs) : Prop := forall k, slookup a k = slookup b k.
(** the same keywords except for k *)
Definition same_except (k : string) (a b : lkwargs) : Prop := forall k', k' <> k -> slookup a k' = slookup b k'.
Definition lal_required : list string := ["approximant"; "q"; "chi1"; "chi2"; "ecc"; "mean_ano"; "Momega0"].

(** ** Returned data *)
Definition holds (d : data_dict) (k : string) (x : dent) : Prop := slookup d k = Some x.
Definition uniform (step : Q) (t : list Q) : Prop :=
  forall i a b, nth_error t i = Some a -> nth_error t (S i) = Some b -> (b - a == step)%Q.
(** every mode has as many samples as there are times *)
Definition fits (t : list Q) (d : modes) : Prop := forall lm h, In (lm, h) d -> length h = length t.
(** the time of the peak, by a parabola (C07), of the amplitude summed over all modes (C60) *)
Definition peak_time (S : sources) (t : list Q) (d : modes) : res Q :=
  do a <- amplitude_using_all_modes (list cnum) (map (fun z => so_sqrt S (fst z * fst z + snd z * snd z)%Q)) (so_sqrt S) "hlm"
            (map (fun kv => (fst kv, inl (snd kv))) d);
  do p <- peak_time_via_quadratic_fit t a; Ok (Qred (fst p)).
(** the maximum of the amplitude, as the package itself finds it, is at time zero *)
Definition merger_at_zero (S : sources) (t : list Q) (d : modes) : Prop := exists p, peak_time S t d = Ok p /\ (p == 0)%Q.
Definition starts (t : list Q) (x : Q) : Prop := nth_error t 0 = Some x.

(** ** Generated waveforms *)
(** the physical constants are positive *)
Definition sane (S : sources) : Prop := (0 < so_mtsun S)%Q /\ (0 < so_msun S)%Q /\ (0 < so_c S)%Q /\ (0 < so_pc S)%Q /\ ~ (so_ylm S == 0)%Q.
(** the call of the library for these parameters; m is the total mass in solar masses and d the distance in megaparsecs *)
Definition call_for (S : sources) (approximant : string) (q : Q) (z1 z2 ecc omega dt m d : Q) (c : td_call) : Prop :=
  td_approximant c = approximant /\ (td_m1 c == q * td_m2 c)%Q /\ (td_m1 c + td_m2 c == m * so_msun S)%Q /\
  snd (td_spin1 c) = z1 /\ snd (td_spin2 c) = z2 /\
  (fst (fst (td_spin1 c)) == 0)%Q /\ (snd (fst (td_spin1 c)) == 0)%Q /\ (fst (fst (td_spin2 c)) == 0)%Q /\ (snd (fst (td_spin2 c)) == 0)%Q /\
  td_ecc c = ecc /\ (td_flow c * np_pi * (m * so_mtsun S) == omega)%Q /\ td_fref c = td_flow c /\ (td_dt c == dt * (m * so_mtsun S))%Q /\
  (td_distance c == d * 1000000 * so_pc S)%Q /\ td_inclination c = 0%Q /\ td_phi c = 0%Q /\ td_nodes c = 0%Q.
(** z = k * w for every sample *)
Definition rescaled (k : Q) (w z : list cnum) : Prop :=
  length z = length w /\ forall i a b, nth_error w i = Some a -> nth_error z i = Some b -> (fst b == k * fst a)%Q /\ (snd b == k * snd a)%Q.
(** the keywords of the n-th try for the quasi-circular waveform *)
Definition circular (kw : lkwargs) (ecc omega : Q) : lkwargs :=
  sset (sset (sset kw "ecc" (Some (ANum ecc))) "Momega0" (Some (ANum omega))) "include_zero_ecc" (Some (ABool false)).
Definition tries (factor omega : Q) (n : nat) : Q := Nat.iter n (fun x => factor * x)%Q omega.
(** the eccentricity taken for zero *)
Definition zero_for (approximant : string) : Q := if String.eqb approximant "EccentricTD" then 1 # 100000 else 0.
Definition later (t : list Q) (t0 : Q) : Prop := exists x, starts t x /\ (t0 < x)%Q.
Definition no_later (t : list Q) (t0 : Q) : Prop := exists x, starts t x /\ (x <= t0)%Q.
(** loading with these keywords gives t and d *)
Definition generates (S : sources) (kw : lkwargs) (t : list Q) (d : modes) : Prop :=
  exists fuel data, snd (load_waveform S fuel "LAL" kw) = Ok data /\ holds data "t" (DTime t) /\ holds data "hlm" (DModes d).
(** spins that the generated waveforms do not have *)
Definition bad_spin (c : list Q) : Prop :=
  length c <> 3 \/ exists x y z, c = [x; y; z] /\ ((1 # 100000 < Qabs x + Qabs y)%Q \/ (1 < z * z)%Q).
(** small components in the orbital plane *)
Definition nearly_aligned (x y : Q) : Prop := (0 < Qabs x + Qabs y)%Q /\ (Qabs x + Qabs y <= 1 # 100000)%Q.

(** ** Numerical waveforms *)
(** q is the mass ratio of the metadata *)
Definition mass_ratio (m : metadata) (q : Q) : Prop :=
  ~ (md_m2 m == 0)%Q /\ let r := (md_m1 m / md_m2 m)%Q in (1 <= r /\ q = r)%Q \/ (1 - (5 # 10000) < r /\ r < 1 /\ q = 1)%Q.
(** the metadata file that is read *)
Definition metadata_of (S : sources) (dir : string) (m : metadata) : Prop :=
  so_metadata S dir (if so_exists S dir FMetaTxt then FMetaTxt else FMetaJson) = Ok m.
(** the files say that the binary has mass ratio q and spins c1 and c2 *)
Definition binary (S : sources) (origin : string) (kw : lkwargs) (q : Q) (c1 c2 : list Q) : Prop :=
  (In origin ["SXSCatalog"; "SXSCatalog_old"] /\
    exists dir m, asked origin kw "data_dir" (Some (AStr dir)) /\ metadata_of S dir m /\ mass_ratio m q /\ c1 = md_chi1 m /\ c2 = md_chi2 m) \/
  (origin = "LVCNR" /\ exists path f, asked origin kw "filepath" (Some (AStr path)) /\ so_lvcnr S path = Ok f /\ (c1, c2) = nr_spins f 0 10 /\
    ((0 < so_msun S)%Q -> (0 < nr_m1 f)%Q -> (0 < nr_m2 f)%Q -> (q == nr_m1 f / nr_m2 f)%Q)) \/
  (origin = "LVCNR_hack" /\ exists path f, asked origin kw "filepath" (Some (AStr path)) /\ so_raw S path = Ok f /\ c1 = ra_chi1 f /\ c2 = ra_chi2 f /\
    q = (ra_m1 f / ra_m2 f)%Q).
(** the keywords of its quasi-circular counterpart; the mean anomaly is without effect *)
Definition nr_circular (approximant : string) (q : Q) (c1 c2 : list Q) (ano : lv) (omega : Q) : lkwargs :=
  [("approximant", Some (AStr approximant)); ("q", Some (ANum q)); ("chi1", Some (AVec c1)); ("chi2", Some (AVec c2)); ("ecc", Some (ANum 0));
   ("mean_ano", Some ano); ("Momega0", Some (ANum omega)); ("include_zero_ecc", Some (ABool false))].

(** the parts of h1 are values of splines through the parts of h, taken at the times grid *)
Definition interpolated (S : sources) (time : list Q) (h : list cnum) (grid : list Q) (h1 : list cnum) : Prop :=
  exists k k', map fst h1 = map (so_spline S time (map fst h) k) grid /\ map snd h1 = map (so_spline S time (map snd h) k') grid.
(** mode lm of the files of an SXS waveform: of the catalog, without memory unless keep_memory is on, and in the old format *)
Definition catalog_mode (S : sources) (kw : lkwargs) (dir : string) (order : option lv) (lm : mode) (time : list Q) (h : list cnum) : Prop :=
  exists w, so_strain S dir order = Ok w /\ time = st_t w /\
    ((wanted "SXSCatalog" kw "keep_memory" /\ st_mode w lm = Ok h) \/
     (unwanted "SXSCatalog" kw "keep_memory" /\
      exists m a b, so_metadata S dir FMetaJson = Ok m /\ st_mode w lm = Ok a /\ so_memory S w (md_relax m) lm = Ok b /\ length a = length b /\ h = map2 cminus a b)).
Definition old_mode (S : sources) (dir : string) (order : option lv) (l : list mode) (lm : mode) (time : list Q) (h : list cnum) : Prop :=
  (exists t, so_old S dir order lm = Ok (t, h)) /\ exists lm0 r h0, l = lm0 :: r /\ so_old S dir order lm0 = Ok (time, h0).
(** the first i samples are the requested number of orbits of junk: by the black holes' orbit if it is known, else by the phase of (2, 2) *)
Definition junk (S : sources) (dir : string) (t : list Q) (d : modes) (orbits : Q) (i : nat) : Prop :=
  if so_exists S dir FHorizons then
    exists time ph p0 j a b, so_horizons S dir = Ok (time, ph) /\ nth_error ph 0 = Some p0 /\ nearest ph (p0 + orbits * 2 * np_pi) j /\
      nth_error time j = Some a /\ nth_error time 0 = Some b /\ nearest t (a - b) i
  else exists h p0, mode_of d (2, 2)%Z h /\ nth_error (map Qopp (so_phase S h)) 0 = Some p0 /\ nearest (map Qopp (so_phase S h)) (p0 + orbits * 4 * np_pi) i.
(** t' is t shifted by a constant *)
Definition shifted (t t' : list Q) : Prop := exists c, t' = map (fun x => x - c)%Q t.
(** the files that the call needs *)
Definition needs (origin : string) (kw : lkwargs) (f : sxs_file) : Prop :=
  match origin with
  | "SXSCatalog" => (exists o, asked origin kw "extrap_order" o /\ (f = FStrainH5 o \/ f = FStrainJson o)) \/
                    (f = FMetaJson /\ (wanted origin kw "include_zero_ecc" \/ wanted origin kw "include_params_dict" \/ unwanted origin kw "keep_memory"))
  | "SXSCatalog_old" => f = FOld \/ (f = FMetaTxt /\ (wanted origin kw "include_zero_ecc" \/ wanted origin kw "include_params_dict"))
  | _ => False
  end.
(** the returned keys *)
Definition keys_of (origin : string) (kw : lkwargs) (data : data_dict) (extra : list (string * string)) : Prop :=
  forall k, slookup data k <> None <-> k = "t" \/ k = "hlm" \/ exists opt, In (opt, k) extra /\ wanted origin kw opt.
(** the optional keys of each origin and the option that asks for them *)
Definition optional_keys (origin : string) : list (string * string) :=
  let zero := [("include_zero_ecc", "t_zeroecc"); ("include_zero_ecc", "hlm_zeroecc")] in
  match origin with
  | "SXSCatalog" | "SXSCatalog_old" | "LVCNR" | "LVCNR_hack" => zero ++ [("include_params_dict", "params_dict")]
  | "EMRI" => zero ++ [("include_geodesic_ecc", "e_geodesic")]
  | _ => zero
  end%list.

(** ** EMRI and EOB files *)
(** the sample that a given time asks for; without one it is [default] *)
Definition sample_for (t : list Q) (v : option lv) (default : nat) (i : nat) : Prop :=
  match v with None => i = default | Some (ANum x) => nearest t x i | Some _ => False end.
(** samples i, ..., j - 1 *)
Definition between {A} (i j : nat) (l l' : list A) : Prop :=
  length l' = Nat.min j (length l) - i /\ forall k, k < length l' -> nth_error l' k = nth_error l (i + k).
(** the times of a file, measured from the maximum of the amplitude *)
Definition emri_times (S : sources) (path : string) (t : list Q) (h : list cnum) : Prop :=
  exists t0 p, so_emri S path = Ok (t0, h) /\ peak_time S t0 [((2, 2)%Z, h)] = Ok p /\ t = map (fun x => x - p)%Q t0.
Definition contains (sub s : string) : Prop := exists pre post, s = (pre ++ sub ++ post)%string.
(** the path of the circular EMRI file derived from that of the eccentric one: everything before the first "e0", and "e0.000.h5" *)
Definition first_occurrence (sub s pre : string) : Prop :=
  (exists post, s = (pre ++ sub ++ post)%string) /\ forall pre' post', s = (pre' ++ sub ++ post')%string -> String.length pre <= String.length pre'.
(** base is s without its last n characters *)
Definition without_last (n : nat) (s base : string) : Prop :=
  (exists post, s = (base ++ post)%string /\ String.length post = n) \/ (String.length s < n /\ base = "").
(** the data of one EOB file: its mode, and its times measured from the maximum of the amplitude *)
Definition eob_data (S : sources) (path : string) (t : list Q) (d : modes) : Prop :=
  exists t0 h p, so_eob S path = Ok (t0, h) /\ d = [((2, 2)%Z, h)] /\ t = map (fun x => x - p)%Q t0 /\ (increasing t0 -> length h = length t0 -> merger_at_zero S t d).
