(** Small waveform libraries and files for the examples of loading. *)
From Coq Require Import Qabs.
From Verif Require Import Base UtilsModel DataModel HelperModel LoadModel LoadSpec DownloadModel DownloadSpec.
Open Scope string_scope.
Open Scope nat_scope.

(** n samples with a maximum at the third from the end *)
Definition hump (n : nat) : list cnum :=
  map (fun i => (if i =? n - 3 then 3 else if (i =? n - 4) || (i =? n - 2) then 2 else 1, 0)%Q) (seq 0 n).
(** n + 1 samples, the last of which a grid up to it leaves out *)
Definition nr_hump (n : nat) : list cnum := (hump n ++ [(0, 0)%Q])%list.
(** the generated waveform: 20 samples with eccentricity; without, 15 or, at low frequency, 40, or 135 of IMRPhenomT; and always 200 of
    the approximant Long and 125 of Near *)
Definition toy_td (c : td_call) : res (list cnum) :=
  Ok (hump (if String.eqb (td_approximant c) "Long" then 200
            else if String.eqb (td_approximant c) "Near" then 125
            else if String.eqb (td_approximant c) "Longer" then 280
            else if Qlt_bool 0 (td_ecc c) then 20
            else if Qlt_bool (td_flow c * np_pi * 10) (6 # 10) then if String.eqb (td_approximant c) "IMRPhenomT" then 135 else 40 else 15)).
Definition at_time (time y : list Q) (x : Q) : Q :=
  match find (fun p => Qeq_bool (fst p) x) (combine time y) with Some p => snd p | None => 0 end.
Definition tenths (n : nat) : list Q := map (fun i => (Z.of_nat i # 10)%Q) (seq 0 n).
Definition units (n : nat) : list Q := map (fun i => inject_Z (Z.of_nat i)) (seq 0 n).
(** dir "a" has everything but Horizons.h5 and metadata.txt, "b" has the old format, "c" has spins in the plane, "d" has m1 slightly
    below m2, "e" has m1 far below m2 *)
Definition toy_metadata (dir : string) : metadata :=
  {| md_m1 := if String.eqb dir "d" then 9998 # 10000 else if String.eqb dir "e" then 1 # 2 else 2; md_m2 := 1; md_chi1 := if String.eqb dir "c" then [1 # 2; 0; 0]%Q else [0; 0; 1 # 2]%Q; md_chi2 := [0; 0; 0]%Q; md_relax := 1 |}.
Definition toy : sources := {|
  so_mtsun := 1; so_msun := 1; so_pc := 1; so_c := 1; so_g := 1; so_ylm := 1 # 2;
  so_sqrt := Qred; so_exp := fun x => (1, 0)%Q;
  so_phase := fun l => map (fun i => - inject_Z (Z.of_nat i))%Q (seq 0 (length l));
  so_spline := fun time y _ x => at_time time y x; so_pchip := fun _ _ _ => 0%Q;
  so_td := toy_td; so_freq := fun _ _ _ _ _ => Ok (/ (10 * np_pi))%Q;
  so_dir := fun d => negb (String.eqb d "nowhere");
  so_exists := fun d f => match f with FStrainH5 _ | FStrainJson _ | FMetaJson => negb (String.eqb d "b") | FOld | FMetaTxt => String.eqb d "b" | FHorizons => false end;
  so_strain := fun _ _ => Ok {| st_t := units 41; st_mode := fun lm => if mode_eqb lm (2, 2)%Z then Ok (nr_hump 40) else if mode_eqb lm (2, 1)%Z then Ok (map (fun _ => (1 # 10, 0)%Q) (seq 0 41)) else Err KeyError |};
  so_memory := fun _ _ _ => Ok (map (fun _ => (0, 0)%Q) (seq 0 41));
  so_old := fun _ _ _ => Ok (units 41, nr_hump 40);
  so_metadata := fun d _ => Ok (toy_metadata d); so_horizons := fun _ => Err FileNotFoundError;
  so_lvcnr := fun _ => Ok {| nr_m1 := 2; nr_m2 := 1; nr_flower := 1; nr_spins := fun _ _ => ([0; 0; 0]%Q, [0; 0; 0]%Q);
                            nr_hlms := fun _ _ _ _ _ => Ok [((2, 2)%Z, nr_hump 40)]; nr_ecc := Some (1 # 10)%Q; nr_anomaly := Some 0%Q |};
  so_raw := fun _ => Ok {| ra_t_amp := units 41; ra_amp := map fst (nr_hump 40); ra_t_phase := units 41; ra_phase := map (fun i => inject_Z (Z.of_nat i)) (seq 0 41);
                          ra_m1 := 2; ra_m2 := 1; ra_chi1 := [0; 0; 0]%Q; ra_chi2 := [0; 0; 0]%Q; ra_ecc := 1 # 10; ra_anomaly := 0 |};
  so_eob := fun p => Ok (units 10, hump 10); so_emri := fun p => Ok (units 10, hump 10);
  so_emri_ecc := fun p => if String.eqb p "q100_e0.2_ecc.h5" then Ok (tenths 10) else Err FileNotFoundError
|}.
Definition lal_kw : lkwargs :=
  [("approximant", Some (AStr "EccentricTD")); ("q", Some (ANum 2)); ("chi1", Some (AVec [0; 0; 1 # 10]%Q)); ("chi2", Some (AVec [0; 0; 0]%Q));
   ("ecc", Some (ANum (1 # 10))); ("mean_ano", Some (ANum 0)); ("Momega0", Some (ANum (65 # 100))); ("deltaTOverM", Some (ANum 1))].
Definition times_of (r : res data_dict) (k : string) : option (list Q) :=
  match r with Ok d => match slookup d k with Some (DTime t) => Some (map Qred t) | _ => None end | Err _ => None end.
Definition yes : option lv := Some (ABool true).
Definition sxs_kw (dir : string) (more : lkwargs) : lkwargs := (("data_dir", Some (AStr dir)) :: ("deltaTOverM", Some (ANum 1)) :: more)%list.
Definition nr_kw (more : lkwargs) : lkwargs := (("filepath", Some (AStr "f.h5")) :: ("deltaTOverM", Some (ANum 1)) :: more)%list.
(** a, a + step, ..., n numbers *)
Definition grid_of (a step : Q) (n : nat) : list Q := map (fun i => Qred (a + step * inject_Z (Z.of_nat i))) (seq 0 n).
Definition circ_kw : lkwargs := (sset lal_kw "approximant" (Some (AStr "X")) ++ [("include_zero_ecc", yes)])%list.
Definition si_kw : lkwargs := (lal_kw ++ [("physicalUnits", yes); ("M", Some (ANum 20)); ("D", Some (ANum 100))])%list.
Definition eob_kw (more : lkwargs) : lkwargs := (("filepath", Some (AStr "x/EccTest1")) :: more)%list.
Definition emri_kw (more : lkwargs) : lkwargs := (("filepath", Some (AStr "q100_e0.2.h5")) :: more)%list.

(** a server with one simulation, and its extrapolation order 2 *)
Definition toy_link (n : string) : string * sdict string := ("Lev3:" ++ n, [("link", "http/" ++ n)]).
Definition toy_server : server := {|
  sv_expand := fun d => "/home/x/" ++ d;
  sv_catalog := fun tag => Ok [("SXS:BBH:0001", Some (map toy_link ["Horizons.h5"; "Strain_N2.h5"; "Strain_N2.json"; "Strain_N3.h5"; "metadata.json"]))];
  sv_fetch := fun u => Ok ("data of " ++ u)
|}.
Definition toy_dir : string := "/home/x/data/SXS_BBH_0001/Lev3".
(** a disk on which the metadata is there, in a state of its own *)
Definition toy_disk : disk := {| d_files := [(toy_dir ++ "/metadata.json", "old"); ("/home/x/other", "mine")]; d_dirs := ["/home/x"; toy_dir] |}.
(** a loader of what is on a disk *)
Definition disk_sources (k : disk) : sources := {|
  so_mtsun := so_mtsun toy; so_msun := so_msun toy; so_pc := so_pc toy; so_c := so_c toy; so_g := so_g toy; so_ylm := so_ylm toy; so_sqrt := so_sqrt toy; so_exp := so_exp toy;
  so_phase := so_phase toy; so_spline := so_spline toy; so_pchip := so_pchip toy; so_td := so_td toy; so_freq := so_freq toy;
  so_dir := path_exists k;
  so_exists := fun d f => match f with FStrainH5 _ => path_exists k (d ++ "/Strain_N2.h5") | FStrainJson _ => path_exists k (d ++ "/Strain_N2.json") | FMetaJson => path_exists k (d ++ "/metadata.json") | FHorizons => path_exists k (d ++ "/Horizons.h5") | FOld | FMetaTxt => false end;
  so_strain := so_strain toy; so_memory := so_memory toy; so_old := so_old toy; so_metadata := so_metadata toy; so_horizons := so_horizons toy; so_lvcnr := so_lvcnr toy; so_raw := so_raw toy;
  so_eob := so_eob toy; so_emri := so_emri toy; so_emri_ecc := so_emri_ecc toy |}.
