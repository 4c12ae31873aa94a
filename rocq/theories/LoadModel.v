(** Loading of waveforms, load_data.py 20-743, 827-1418 and 1697-1984.  Definitions only.  Numbers are exact rationals, a complex number is
    the pair of its parts.  What the libraries lal, lalsimulation, sxs, h5py and json give back is a parameter, the record
    [sources]; load_h22_from_EOBfile (1679-1694), which nothing calls, is not modelled. *)
From Coq Require Import Qabs.
From Verif Require Import Base UtilsModel MeasureModel DataModel HelperModel.
Open Scope string_scope.
Open Scope nat_scope.

Definition cnum : Type := (Q * Q)%type.
(** k * z *)
Definition cscale (k : Q) (z : cnum) : cnum := (k * fst z, k * snd z)%Q.
Definition cminus (z w : cnum) : cnum := (fst z - fst w, snd z - snd w)%Q.
Definition modes := mdict (list cnum).

(** Values of keyword arguments; Python's None is [None]. *)
Inductive lv := ABool (b : bool) | ANum (q : Q) | AStr (s : string) | AVec (l : list Q) | AModes (l : list mode).
Definition lkwargs := sdict (option lv).
(** bool(v) *)
Definition on (v : option lv) : bool :=
  match v with
  | None => false | Some (ABool b) => b | Some (ANum q) => negb (Qeq_bool q 0) | Some (AStr s) => negb (String.eqb s "")
  | Some (AVec l) => negb (length l =? 0) | Some (AModes l) => negb (length l =? 0)
  end.
(** uses of a value as a number, string, array, list of modes.  (Numbers given as bool are not modelled.) *)
Definition num (v : option lv) : res Q := match v with Some (ANum q) => Ok q | _ => Err TypeError end.
Definition str (v : option lv) : res string := match v with Some (AStr s) => Ok s | _ => Err TypeError end.
Definition vec (v : option lv) : res (list Q) := match v with Some (AVec l) => Ok l | _ => Err TypeError end.
Definition lmodes (v : option lv) : res (list mode) := match v with Some (AModes l) => Ok l | _ => Err TypeError end.
Definition num_or_none (v : option lv) : res (option Q) := match v with None => Ok None | Some (ANum q) => Ok (Some q) | _ => Err TypeError end.
Definition has_true (kw : lkwargs) (k : string) : res bool := do v <- sget kw k; Ok (on v).

(** Values of the returned dictionaries. *)
Inductive dent := DTime (l : list Q) | DModes (m : modes) | DParams (d : lkwargs) | DReal (l : list Q).
Definition data_dict := sdict dent.

(** The arguments of lalsim.SimInspiralChooseTDWaveform (without the tidal parameters, which are never given). *)
Record td_call := {
  td_m1 : Q; td_m2 : Q; td_spin1 : Q * Q * Q; td_spin2 : Q * Q * Q; td_distance : Q; td_inclination : Q; td_phi : Q; td_nodes : Q;
  td_ecc : Q; td_anomaly : Q; td_dt : Q; td_flow : Q; td_fref : Q; td_approximant : string
}.
(** Files of the SXS catalog in a directory; the order of extrapolation is part of the name. *)
Inductive sxs_file := FStrainH5 (order : option lv) | FStrainJson (order : option lv) | FOld | FMetaTxt | FMetaJson | FHorizons.
(** What is read from a metadata file. *)
Record metadata := { md_m1 : Q; md_m2 : Q; md_chi1 : list Q; md_chi2 : list Q; md_relax : Q }.
(** A strain of the new format: times and one array per mode. *)
Record strain := { st_t : list Q; st_mode : mode -> res (list cnum) }.
(** An LVCNR file: attributes, spins for (f_ref, M), and the modes for (dt, m1, m2, distance, f_low).  An attribute that float
    refuses is None. *)
Record lvcnr := {
  nr_m1 : Q; nr_m2 : Q; nr_flower : Q; nr_spins : Q -> Q -> (list Q * list Q); nr_hlms : Q -> Q -> Q -> Q -> Q -> res modes;
  nr_ecc : option Q; nr_anomaly : option Q
}.
(** An LVCNR file as seen by h5py. *)
Record lvcnr_raw := {
  ra_t_amp : list Q; ra_amp : list Q; ra_t_phase : list Q; ra_phase : list Q; ra_m1 : Q; ra_m2 : Q; ra_chi1 : list Q; ra_chi2 : list Q;
  ra_ecc : Q; ra_anomaly : Q
}.
Record sources := {
  so_mtsun : Q; so_msun : Q; so_pc : Q; so_c : Q; so_g : Q;             (* constants of lal *)
  so_ylm : Q;                                                        (* SpinWeightedSphericalHarmonic(0, 0, -2, 2, 2), real *)
  so_sqrt : Q -> Q; so_exp : Q -> cnum;                               (* exp(i x) *)
  so_phase : list cnum -> list Q;                                    (* np.unwrap(np.angle(.)) *)
  so_spline : list Q -> list Q -> nat -> Q -> Q; so_pchip : list Q -> list Q -> Q -> Q;
  so_td : td_call -> res (list cnum);                                 (* hp - 1j * hc *)
  so_freq : Q -> Q -> Q -> Q -> Q -> res Q;                           (* SimIMRSEOBNRv4ROMFrequencyOfTime *)
  so_dir : string -> bool; so_exists : string -> sxs_file -> bool;     (* os.path.exists *)
  so_strain : string -> option lv -> res strain; so_memory : strain -> Q -> (mode -> res (list cnum));
  so_old : string -> option lv -> mode -> res (list Q * list cnum);
  so_metadata : string -> sxs_file -> res metadata; so_horizons : string -> res (list Q * list Q);
  so_lvcnr : string -> res lvcnr; so_raw : string -> res lvcnr_raw;
  so_eob : string -> res (list Q * list cnum); so_emri : string -> res (list Q * list cnum); so_emri_ecc : string -> res (list Q)
}.

(** load_data.py 69-83, defaults for "LAL".  Decimal literals are taken as the fractions they denote. *)
Definition lal_defaults : lkwargs :=
  [("approximant", None); ("q", None); ("chi1", None); ("chi2", None); ("ecc", None); ("mean_ano", None); ("Momega0", None);
   ("deltaTOverM", Some (ANum (1 # 10))); ("physicalUnits", Some (ABool false)); ("M", None); ("D", None);
   ("include_zero_ecc", Some (ABool false))].
(** load_data.py 547-558, get_defaults_for_nr *)
Definition nr_defaults : lkwargs :=
  [("filepath", None); ("data_dir", None); ("deltaTOverM", Some (ANum (1 # 10))); ("Momega0", Some (ANum 0));
   ("include_zero_ecc", Some (ABool false)); ("include_params_dict", Some (ABool false));
   ("zero_ecc_approximant", Some (AStr "IMRPhenomT")); ("metadata_path", None); ("num_orbits_to_remove_as_junk", Some (ANum 2));
   ("mode_array", Some (AModes [(2, 2)%Z])); ("extrap_order", Some (ANum 2)); ("keep_memory", Some (ABool false))].
(** load_data.py 142-163, make_a_sub_dict *)
Fixpoint make_a_sub_dict {V} (super : sdict V) (acc : sdict V) (keys : list string) : res (sdict V) :=
  match keys with
  | [] => Ok acc
  | k :: r => match slookup super k with Some v => make_a_sub_dict super (sset acc k v) r | None => Err GenericException end
  end.
Definition sxs_keys : list string :=
  ["data_dir"; "metadata_path"; "deltaTOverM"; "include_zero_ecc"; "include_params_dict"; "zero_ecc_approximant";
   "num_orbits_to_remove_as_junk"; "mode_array"; "extrap_order"].
(** load_data.py 52-139, get_load_waveform_defaults *)
Definition get_load_waveform_defaults (origin : string) : res lkwargs :=
  if String.eqb origin "LAL" then Ok lal_defaults
  else if String.eqb origin "SXSCatalog" then make_a_sub_dict nr_defaults [] (sxs_keys ++ ["keep_memory"])%list
  else if String.eqb origin "SXSCatalog_old" then make_a_sub_dict nr_defaults [] sxs_keys
  else if String.eqb origin "LVCNR" then
    make_a_sub_dict nr_defaults [] ["filepath"; "deltaTOverM"; "Momega0"; "include_zero_ecc"; "include_params_dict"; "zero_ecc_approximant";
                                    "num_orbits_to_remove_as_junk"]
  else if String.eqb origin "LVCNR_hack" then
    make_a_sub_dict nr_defaults [] ["filepath"; "deltaTOverM"; "include_zero_ecc"; "include_params_dict"; "zero_ecc_approximant";
                                    "num_orbits_to_remove_as_junk"]
  else if String.eqb origin "EOB" then Ok [("filepath", None); ("include_zero_ecc", Some (ABool false)); ("filepath_zero_ecc", None)]
  else if String.eqb origin "EMRI" then
    Ok [("filepath", None); ("include_zero_ecc", Some (ABool false)); ("filepath_zero_ecc", None); ("start_time", None); ("end_time", None);
        ("deltaT", None); ("include_geodesic_ecc", Some (ABool false))]
  else Err GenericException.

Section Load.
  Variable S : sources.

  (** warnings.warn: the text is a fixed tag in the model. *)
  Definition warn (msg : string) : lg unit := ([msg], Ok tt).

  (** amplitude_using_all_modes(modes), utils.py 11-35 *)
  Definition cabs (z : cnum) : Q := so_sqrt S (fst z * fst z + snd z * snd z)%Q.
  Definition all_modes_amplitude (d : modes) : res (list Q) :=
    amplitude_using_all_modes (list cnum) (map cabs) (so_sqrt S) "hlm" (map (fun kv => (fst kv, inl (snd kv))) d).
  (** peak_time_via_quadratic_fit(t, amplitude_using_all_modes(modes))[0], as a reduced fraction *)
  Definition peak_of (t : list Q) (d : modes) : res Q :=
    do a <- all_modes_amplitude d; do p <- peak_time_via_quadratic_fit t a; Ok (Qred (fst p)).
  Definition shift (t : list Q) (x : Q) : list Q := map (fun s => s - x)%Q t.
  (** interpolate with its defaults, utils.py 182-236 *)
  Definition resample (t x y : list Q) : res (list Q) := interpolate (so_spline S) (so_pchip S) t x y false "spline" None.

  (** load_data.py 442-454 and 457-471 *)
  Definition time_dimless_to_mks (M : Q) : Q := (M * so_mtsun S)%Q.
  Definition amplitude_dimless_to_mks (M D : Q) : Q := (so_g S * M * so_msun S / (so_c S * so_c S * D * 1000000 * so_pc S))%Q.

  (** load_data.py 377-398, spins for aligned-spin models: small components in the plane are set to zero.  The square roots are
      absolute values, and that of the norm is compared with 1. *)
  Definition aligned (chi : list Q) : res (list Q) :=
    let s := qsum (map Qabs (firstn 2 chi)) in
    if Qlt_bool (1 # 100000) s then Err GenericException
    else Ok (if Qeq_bool s 0 then chi else map (fun _ => 0%Q) (firstn 2 chi) ++ skipn 2 chi)%list.
  Definition spin_checks (chi1 chi2 : list Q) : res ((Q * Q * Q) * (Q * Q * Q)) :=
    do a <- aligned chi1; do b <- aligned chi2;
    if Qlt_bool 1 (qdot a a) then Err GenericException
    else if Qlt_bool 1 (qdot b b) then Err GenericException
    else match a, b with
         | [x1; y1; z1], [x2; y2; z2] => Ok ((x1, y1, z1), (x2, y2, z2))
         | _, _ => Err GenericException
         end.

  (** load_data.py 323-439, generate_LAL_waveform, with the default arguments that its only caller leaves alone: longAscNodes=0,
      meanPerAno=0, alignedSpin=True, no tidal parameters. *)
  Definition generate_LAL_waveform (approximant : string) (q : Q) (chi1 chi2 : list Q) (dt Momega0 ecc : Q) (phi inclination : Q)
             (physical : bool) (M D : option Q) : res (list Q * list cnum) :=
    do s <- spin_checks chi1 chi2;
    do md <- (if physical then match M, D with
                               | None, _ => Err GenericException
                               | _, None => Err GenericException
                               | Some m, Some d => Ok (m, d * 1000000 * so_pc S)%Q
                               end
              else Ok (10, 1000000 * so_pc S)%Q);
    let '(m, distance) := md in
    let MT := (m * so_mtsun S)%Q in
    let flow := (Momega0 / np_pi / MT)%Q in
    do h <- so_td S {| td_m1 := (m * so_msun S * q / (1 + q))%Q; td_m2 := (m * so_msun S / (1 + q))%Q; td_spin1 := fst s; td_spin2 := snd s;
                       td_distance := distance; td_inclination := inclination; td_phi := phi; td_nodes := 0; td_ecc := ecc;
                       td_anomaly := 0; td_dt := (dt * MT)%Q; td_flow := flow; td_fref := flow; td_approximant := approximant |};
    let step := if physical then (dt * MT)%Q else dt in
    Ok (map (fun i => step * inject_Z (Z.of_nat i))%Q (seq 0 (length h)),
        if physical then h else map (cscale (distance / MT / so_c S)%Q) h).

  (** load_data.py 296-320, load_LAL_waveform_using_hack: [mean_ano] is not used *)
  Definition load_LAL_waveform_using_hack (approximant : string) (q : Q) (chi1 chi2 : list Q) (ecc : Q) (mean_ano : option lv) (Momega0 dt : Q)
             (physical : bool) (M D : option Q) : res (list Q * modes) :=
    do th <- generate_LAL_waveform approximant q chi1 chi2 dt Momega0 ecc 0 0 physical M D;
    let d := [((2, 2)%Z, map (cscale (/ so_ylm S)%Q) (snd th))] in
    do p <- peak_of (fst th) d;
    Ok (shift (fst th) p, d).

  (** load_data.py 250-271: the part of load_LAL_waveform before include_zero_ecc.  The first result is kwargs with the defaults. *)
  Definition load_LAL_once (user : lkwargs) : res (lkwargs * (list Q * modes)) :=
    do kw <- check_kwargs_and_set_defaults (Some user) lal_defaults;
    do _ <- raise_exception_if_none kw ["approximant"; "q"; "chi1"; "chi2"; "ecc"; "mean_ano"; "Momega0"];
    do a <- (do v <- sget kw "approximant"; str v); do q <- (do v <- sget kw "q"; num v);
    do c1 <- (do v <- sget kw "chi1"; vec v); do c2 <- (do v <- sget kw "chi2"; vec v);
    do e <- (do v <- sget kw "ecc"; num v); do an <- sget kw "mean_ano"; do om <- (do v <- sget kw "Momega0"; num v);
    do dt <- (do v <- sget kw "deltaTOverM"; num v); do ph <- has_true kw "physicalUnits";
    do M <- (do v <- sget kw "M"; num_or_none v); do D <- (do v <- sget kw "D"; num_or_none v);
    do r <- load_LAL_waveform_using_hack a q c1 c2 e an om dt ph M D;
    Ok (kw, r).
  (** load_data.py 286-288 and 1399-1403: a longer waveform is generated until it starts before t0.  The inner load_waveform has
      include_zero_ecc=False. *)
  Fixpoint longer (fuel : nat) (factor : Q) (t0 : Q) (kw : lkwargs) (cur : list Q * modes) : res (nat * (list Q * modes)) :=
    do z0 <- get (fst cur) 0;
    if Qlt_bool t0 z0 then
      match fuel with
      | O => Err OutOfFuel
      | Datatypes.S n =>
          do om <- (do v <- sget kw "Momega0"; num v);
          let kw' := sset kw "Momega0" (Some (ANum (factor * om)%Q)) in
          do r <- load_LAL_once kw'; do x <- longer n factor t0 kw' (snd r); Ok (Datatypes.S (fst x), snd x)
      end
    else Ok (0, cur).
  (** load_data.py 212-293, load_LAL_waveform *)
  Definition load_LAL_waveform (fuel : nat) (user : lkwargs) : res data_dict :=
    do r <- load_LAL_once user;
    let '(kw, (t, d)) := r in
    let data := [("t", DTime t); ("hlm", DModes d)] in
    do z <- has_true kw "include_zero_ecc";
    if z then
      do a <- (do v <- sget kw "approximant"; str v);
      let kz := sset (sset kw "ecc" (Some (ANum (if String.eqb a "EccentricTD" then 1 # 100000 else 0)))) "include_zero_ecc" (Some (ABool false)) in
      do first <- load_LAL_once kz;
      do t0 <- get t 0;
      do last <- longer fuel (9 # 10) t0 kz (snd first);
      Ok (data ++ [("t_zeroecc", DTime (fst (snd last))); ("hlm_zeroecc", DModes (snd (snd last)))])%list
    else Ok data.

  (** l[i:] *)
  Definition from_index {A} (l : list A) (i : Z) : list A := skipn (norm_bound (length l) i) l.
  (** load_data.py 1336-1418, get_zeroecc_dataDict_for_nr *)
  Definition get_zeroecc_dataDict_for_nr (fuel : nat) (t : list Q) (d : modes) (params : lkwargs) : lg (list Q * modes) :=
    let kw := sset (sset params "ecc" (Some (ANum 0))) "include_zero_ecc" (Some (ABool false)) in
    let! t_merger := lift (peak_of t d) in
    let! t0 := lift (get t 0) in
    let inspiral := ((t_merger - t0) * time_dimless_to_mks 10)%Q in
    let! q := lift (do v <- sget kw "q"; num v) in
    let! s1 := lift (do v <- sget kw "chi1"; do l <- vec v; get l 2) in
    let! s2 := lift (do v <- sget kw "chi2"; do l <- vec v; get l 2) in
    let! f0 := lift (so_freq S inspiral (q * 10 / (1 + q) * so_msun S)%Q (10 / (1 + q) * so_msun S)%Q s1 s2) in
    let kw1 := sset kw "Momega0" (Some (ANum (f0 * time_dimless_to_mks 10 * np_pi)%Q)) in
    let! first := lift (load_LAL_once kw1) in
    let! z0 := lift (get (fst (snd first)) 0) in
    let! _ := (if Qle_bool (- (2 * t0)) (- z0) then warn "zeroecc waveform is too long" else lret tt) in
    let! last := lift (longer fuel (1 # 2) t0 kw1 (snd first)) in
    let! _ := (if 2 <=? fst last then warn "too many tries" else lret tt) in
    let tz := fst (snd last) in
    let! i := lift (argmin (map (fun x => Qabs (x - t0)) tz)) in
    let start := (Z.of_nat i - 10)%Z in
    lret (from_index tz start, map (fun kv => (fst kv, from_index (snd kv) start)) (snd (snd last))).

  (** load_data.py 1281-1333, get_params_dict_from_sxs_metadata, after reading the file *)
  Definition params_of_metadata (m : metadata) : lg lkwargs :=
    if Qeq_bool (md_m2 m) 0 then lraise ZeroDivisionError
    else
      let q := (md_m1 m / md_m2 m)%Q in
      let dq := (1 - q)%Q in
      let! q' := (if Qlt_bool 0 dq then
                    if Qlt_bool dq (5 # 10000) then let! _ := warn "m1 < m2" in lret 1%Q else lraise GenericException
                  else lret q) in
      lret [("q", Some (ANum q')); ("chi1", Some (AVec (md_chi1 m))); ("chi2", Some (AVec (md_chi2 m))); ("t_relax", Some (ANum (md_relax m)))].

  (** any([kwargs["include_zero_ecc"], kwargs["include_params_dict"], not kwargs.get("keep_memory", True)]) *)
  Definition metadata_needed (kw : lkwargs) : res bool :=
    do z <- has_true kw "include_zero_ecc"; do p <- has_true kw "include_params_dict";
    Ok (z || p || negb match slookup kw "keep_memory" with Some v => on v | None => true end).
  (** load_data.py 1038-1136, check_sxs_data_dir; [latest] is origin == "SXSCatalog" *)
  Definition check_sxs_data_dir (latest : bool) (kw : lkwargs) : lg bool :=
    let! v := lift (sget kw "data_dir") in
    let! dir := lift match v with None => Err GenericException | Some _ => str v end in
    let! _ := lift (if so_dir S dir then Ok tt else Err FileNotFoundError) in
    let! order := lift (sget kw "extrap_order") in
    let! meta := lift (metadata_needed kw) in
    let files := ((if latest then [FStrainH5 order; FStrainJson order] else [FOld]) ++
                  (if meta then [if latest then FMetaJson else FMetaTxt] else []))%list in
    let! _ := lift (if forallb (so_exists S dir) files then Ok tt else Err FileNotFoundError) in
    if so_exists S dir FHorizons then lret true else let! _ := warn "no Horizons.h5" in lret false.

  (** the interpolated mode, real and imaginary part separately, load_data.py 1216-1221 and 1274-1277 *)
  Definition resample_mode (t time : list Q) (h : list cnum) : res (list cnum) :=
    do re <- resample t time (map fst h); do im <- resample t time (map snd h); Ok (combine re im).
  (** load_data.py 1195-1222, get_modes_dict_from_sxs_catalog_old_format; t of the first mode is used for all, but every mode is
      interpolated with the times of the first one *)
  Fixpoint old_modes (dir : string) (order : option lv) (dt : Q) (tt : option (list Q * list Q)) (acc : modes) (l : list mode)
    : res (option (list Q * list Q) * modes) :=
    match l with
    | [] => Ok (tt, acc)
    | lm :: r =>
        do x <- so_old S dir order lm;
        do tt' <- match tt with
                  | Some p => Ok p
                  | None => do a <- get (fst x) 0; do b <- last_of (fst x); do t <- arange a b dt; Ok (fst x, t)
                  end;
        do h <- resample_mode (snd tt') (fst tt') (snd x);
        old_modes dir order dt (Some tt') (dset mode_eqb acc lm h) r
    end.
  Definition get_modes_old (kw : lkwargs) : res (list Q * modes) :=
    do dir <- (do v <- sget kw "data_dir"; str v); do order <- sget kw "extrap_order";
    do l <- (do v <- sget kw "mode_array"; lmodes v); do dt <- (do v <- sget kw "deltaTOverM"; num v);
    do r <- old_modes dir order dt None [] l;
    match fst r with Some p => Ok (snd p, snd r) | None => Err NameError end.
  (** load_data.py 1225-1278, get_modes_dict_from_sxs_catalog_format.  Simplified: the memory is subtracted, and the lengths are
      compared, for each requested mode and not for the whole array. *)
  Fixpoint new_modes (data : mode -> res (list cnum)) (t time : list Q) (acc : modes) (l : list mode) : res modes :=
    match l with
    | [] => Ok acc
    | lm :: r => do h <- data lm; do x <- resample_mode t time h; new_modes data t time (dset mode_eqb acc lm x) r
    end.
  Definition get_modes_new (kw : lkwargs) : lg (list Q * modes) :=
    let! dir := lift (do v <- sget kw "data_dir"; str v) in
    let! order := lift (sget kw "extrap_order") in
    let! w := lift (so_strain S dir order) in
    let! keep := lift (has_true kw "keep_memory") in
    let! data := (if keep then lret (st_mode w)
                  else let! m := lift (so_metadata S dir FMetaJson) in
                       let! p := params_of_metadata m in
                       let! relax := lift (do v <- sget p "t_relax"; num v) in
                       lret (fun lm => do a <- st_mode w lm; do b <- so_memory S w relax lm;
                                       if length a =? length b then Ok (map2 cminus a b) else Err ValueError)) in
    let! dt := lift (do v <- sget kw "deltaTOverM"; num v) in
    let! a := lift (get (st_t w) 0) in let! b := lift (last_of (st_t w)) in
    let! t := lift (arange a b dt) in
    let! l := lift (do v <- sget kw "mode_array"; lmodes v) in
    let! d := lift (new_modes data t (st_t w) [] l) in
    lret (t, d).

  (** load_data.py 1139-1192, make_return_dict_for_sxs_catalog_format *)
  Definition make_return_dict (fuel : nat) (t : list Q) (d : modes) (horizons : bool) (kw : lkwargs) : lg data_dict :=
    let! orbits := lift (do v <- sget kw "num_orbits_to_remove_as_junk"; num v) in
    let! dir := lift (do v <- sget kw "data_dir"; str v) in
    let! td := lift (if horizons then do h <- so_horizons S dir; remove_junk_horizons t d orbits (fst h) (snd h)
                     else remove_junk (fun l => map Qopp (so_phase S l)) t d orbits) in
    let! p := lift (peak_of (fst td) (snd td)) in
    let t' := shift (fst td) p in
    let data := [("t", DTime t'); ("hlm", DModes (snd td))] in
    let! meta := lift (metadata_needed kw) in
    let! params := (if meta then let! m := lift (so_metadata S dir (if so_exists S dir FMetaTxt then FMetaTxt else FMetaJson)) in params_of_metadata m
                    else lret []) in
    let! z := lift (has_true kw "include_zero_ecc") in
    let! data1 := (if z then
                     let! a := lift (sget kw "zero_ecc_approximant") in
                     let pz := sset (sset (spop params "t_relax") "approximant" a) "mean_ano" (Some (ANum 0)) in
                     let! x := get_zeroecc_dataDict_for_nr fuel t' (snd td) pz in
                     lret (data ++ [("t_zeroecc", DTime (fst x)); ("hlm_zeroecc", DModes (snd x))])%list
                   else lret data) in
    let! wp := lift (has_true kw "include_params_dict") in
    lret (if wp then data1 ++ [("params_dict", DParams params)] else data1)%list.
  (** load_data.py 827-983 and 986-1035 *)
  Definition load_sxs (latest : bool) (fuel : nat) (user : lkwargs) : lg data_dict :=
    let! def := lift (get_load_waveform_defaults (if latest then "SXSCatalog" else "SXSCatalog_old")) in
    let! kw := lift (check_kwargs_and_set_defaults (Some user) def) in
    let! hz := check_sxs_data_dir latest kw in
    let! td := (if latest then get_modes_new kw else lift (get_modes_old kw)) in
    make_return_dict fuel (fst td) (snd td) hz kw.

  (** the parameters of the binary in an LVCNR file, load_data.py 727-732 and 1872-1877 *)
  Definition nr_params (q : Q) (chi1 chi2 : list Q) (ecc ano : option Q) : lkwargs :=
    [("q", Some (ANum q)); ("chi1", Some (AVec chi1)); ("chi2", Some (AVec chi2)); ("ecc", option_map ANum ecc); ("mean_ano", option_map ANum ano)].
  (** load_data.py 561-743, load_lvcnr_waveform.  Simplified: masses with m1 + m2 = 0 or m2 = 0, where the code divides by zero, give
      0 here; the file is read at once. *)
  Definition load_lvcnr_waveform (fuel : nat) (user : lkwargs) : lg data_dict :=
    let! def := lift (get_load_waveform_defaults "LVCNR") in
    let! kw := lift (check_kwargs_and_set_defaults (Some user) def) in
    let! path := lift (do v <- sget kw "filepath"; str v) in
    let! dtM := lift (do v <- sget kw "deltaTOverM"; num v) in
    let! om := lift (do v <- sget kw "Momega0"; num v) in
    let dt := (dtM * time_dimless_to_mks 10)%Q in
    let f_low := (om / np_pi / time_dimless_to_mks 10)%Q in
    let! f := lift (so_lvcnr S path) in
    let m1 := (nr_m1 f * 10 / (nr_m1 f + nr_m2 f) * so_msun S)%Q in
    let m2 := (nr_m2 f * 10 / (nr_m1 f + nr_m2 f) * so_msun S)%Q in
    let flow := if Qeq_bool f_low 0 then (nr_flower f / 10)%Q else f_low in
    let spins := nr_spins f 0 10 in
    let! raw := lift (nr_hlms f dt m1 m2 (1000000 * so_pc S)%Q flow) in
    let d := map (fun kv => (fst kv, map (cscale (/ amplitude_dimless_to_mks 10 1)%Q) (snd kv))) raw in
    let! h22 := lift (mget d (2, 2)%Z) in
    let t := map (fun i => inject_Z (Z.of_nat i) * dt / time_dimless_to_mks 10)%Q (seq 0 (length h22)) in
    let! p := lift (peak_of t d) in
    let! orbits := lift (do v <- sget kw "num_orbits_to_remove_as_junk"; num v) in
    let! td := lift (remove_junk (fun l => map Qopp (so_phase S l)) (shift t p) d orbits) in
    let data := [("t", DTime (fst td)); ("hlm", DModes (snd td))] in
    let params := nr_params (m1 / m2)%Q (fst spins) (snd spins) (nr_ecc f) (nr_anomaly f) in
    let! z := lift (has_true kw "include_zero_ecc") in
    let! data1 := (if z then
                     let! a := lift (sget kw "zero_ecc_approximant") in
                     let! x := get_zeroecc_dataDict_for_nr fuel (fst td) (snd td) (sset params "approximant" a) in
                     lret (data ++ [("t_zeroecc", DTime (fst x)); ("hlm_zeroecc", DModes (snd x))])%list
                   else lret data) in
    let! wp := lift (has_true kw "include_params_dict") in
    lret (if wp then data1 ++ [("params_dict", DParams params)] else data1)%list.

  (** load_data.py 1771-1888, load_lvcnr_hack *)
  Definition load_lvcnr_hack (fuel : nat) (user : lkwargs) : lg data_dict :=
    let! def := lift (get_load_waveform_defaults "LVCNR_hack") in
    let! kw := lift (check_kwargs_and_set_defaults (Some user) def) in
    let! path := lift (do v <- sget kw "filepath"; str v) in
    let! f := lift (so_raw S path) in
    let! a0 := lift (get (ra_t_amp f) 0) in let! p0 := lift (get (ra_t_phase f) 0) in
    let! an := lift (last_of (ra_t_amp f)) in let! pn := lift (last_of (ra_t_phase f)) in
    let! dt := lift (do v <- sget kw "deltaTOverM"; num v) in
    let! t := lift (arange (Qmaxb a0 p0) (Qminb an pn) dt) in
    let! amp := lift (resample t (ra_t_amp f) (ra_amp f)) in
    let! ph := lift (resample t (ra_t_phase f) (ra_phase f)) in
    let! orbits := lift (do v <- sget kw "num_orbits_to_remove_as_junk"; num v) in
    let! td := lift (remove_junk (fun l => map Qopp (so_phase S l)) t [((2, 2)%Z, map2 (fun a p => cscale a (so_exp S p)) amp ph)] orbits) in
    let data := [("t", DTime (fst td)); ("hlm", DModes (snd td))] in
    let params := nr_params (ra_m1 f / ra_m2 f)%Q (ra_chi1 f) (ra_chi2 f) (Some (ra_ecc f)) (Some (ra_anomaly f)) in
    let! wp := lift (has_true kw "include_params_dict") in
    let data1 := (if wp then data ++ [("params_dict", DParams params)] else data)%list in
    let! z := lift (has_true kw "include_zero_ecc") in
    if z then
      let! a := lift (sget kw "zero_ecc_approximant") in
      let! x := get_zeroecc_dataDict_for_nr fuel (fst td) (snd td) (sset params "approximant" a) in
      lret (data1 ++ [("t_zeroecc", DTime (fst x)); ("hlm_zeroecc", DModes (snd x))])%list
    else lret data1.

  (** load_data.py 1713-1720: one file of load_EOB_EccTest_file *)
  Definition eob_file (path : string) : res (list Q * modes) :=
    do f <- so_eob S path;
    let d := [((2, 2)%Z, snd f)] in
    do p <- peak_of (fst f) d; Ok (shift (fst f) p, d).
  (** [sub] occurs in [s] *)
  Definition occurs (sub s : string) : bool := match String.index 0 sub s with Some _ => true | None => false end.
  (** load_data.py 1697-1732 and 1735-1768, load_EOB_EccTest_file and load_EOB_waveform *)
  Definition load_EOB_waveform (user : lkwargs) : res data_dict :=
    do def <- get_load_waveform_defaults "EOB";
    do kw <- check_kwargs_and_set_defaults (Some user) def;
    do fv <- sget kw "filepath"; do z <- has_true kw "include_zero_ecc"; do zv <- sget kw "filepath_zero_ecc";
    do path <- match fv with None => Err GenericException | Some _ => str fv end;
    do _ <- (if z then match zv with None => Err GenericException | Some _ => Ok tt end else Ok tt);
    if occurs "EccTest" path then
      do x <- eob_file path;
      let data := [("t", DTime (fst x)); ("hlm", DModes (snd x))] in
      if z then do zp <- str zv; do y <- eob_file zp;
                Ok (data ++ [("t_zeroecc", DTime (fst y)); ("hlm_zeroecc", DModes (snd y))])%list
      else Ok data
    else Err GenericException.

  (** s[:i] *)
  Definition until (s : string) (i : Z) : string := String.substring 0 (norm_bound (String.length s) i) s.
  (** load_data.py 1931-1960: the waveform of an EMRI file.  The second result is the slice and the times before interpolation. *)
  Definition emri_file (path : string) (start_time end_time dt : option Q) : res (list Q * modes * (Z * Z * list Q)) :=
    do f <- so_emri S path;
    do p <- peak_of (fst f) [((2, 2)%Z, snd f)];
    let t := shift (fst f) p in
    do start <- match start_time with None => Ok 0%Z | Some s => do i <- argmin (map (fun x => Qabs (x - s)) t); Ok (Z.of_nat i) end;
    do stop <- match end_time with None => Ok (-1)%Z | Some s => do i <- argmin (map (fun x => Qabs (x - s)) t); Ok (Z.of_nat i) end;
    let t' := zslice t start stop in let h' := zslice (snd f) start stop in
    match dt with
    | None => Ok (t', [((2, 2)%Z, h')], (start, stop, t'))
    | Some dt =>
        do a <- get t' 0; do b <- last_of t'; do g <- arange a b dt;
        let g' := filter (fun x => Qle_bool a x && Qle_bool x b) g in
        do amp <- resample g' t' (map cabs h'); do ph <- resample g' t' (so_phase S h');
        Ok (g', [((2, 2)%Z, map2 (fun a p => cscale a (so_exp S p)) amp ph)], (start, stop, t'))
    end.
  (** load_data.py 1891-1984, load_EMRI_waveform.  The inner call for the circular waveform is given the path only. *)
  Definition load_EMRI_waveform (user : lkwargs) : res data_dict :=
    do def <- get_load_waveform_defaults "EMRI";
    do kw <- check_kwargs_and_set_defaults (Some user) def;
    do fv <- sget kw "filepath";
    do path <- match fv with None => Err KeyError | Some _ => str fv end;
    do s <- (do v <- sget kw "start_time"; num_or_none v); do e <- (do v <- sget kw "end_time"; num_or_none v);
    do dt <- (do v <- sget kw "deltaT"; num_or_none v);
    do x <- emri_file path s e dt;
    let '(t, d, (start, stop, t')) := x in
    let data := [("t", DTime t); ("hlm", DModes d)] in
    do z <- has_true kw "include_zero_ecc";
    do data1 <- (if z then
                   do zv <- sget kw "filepath_zero_ecc";
                   do zp <- match zv with
                            | None => Ok (until path match String.index 0 "e0" path with Some i => Z.of_nat i | None => (-1)%Z end ++ "e0.000.h5")%string
                            | Some _ => str zv
                            end;
                   do y <- emri_file zp None None None;
                   do h <- mget (snd (fst y)) (2, 2)%Z;
                   Ok (data ++ [("t_zeroecc", DTime (fst (fst y)));
                                ("hlm_zeroecc", DModes [((2, 2)%Z, map (cscale (/ so_sqrt S (2 * np_pi))%Q) h)])])%list
                 else Ok data);
    do g <- has_true kw "include_geodesic_ecc";
    if g then
      do ec <- so_emri_ecc S (until path (-3) ++ "_ecc.h5")%string;
      let e' := zslice ec start stop in
      match dt with
      | None => Ok (data1 ++ [("e_geodesic", DReal e')])%list
      | Some _ => do r <- resample t t' (map Qabs e'); Ok (data1 ++ [("e_geodesic", DReal r)])%list
      end
    else Ok data1.

  (** load_data.py 20-39 and 166-209, get_available_waveform_origins and load_waveform *)
  Definition get_available_waveform_origins : list string :=
    ["LAL"; "SXSCatalog"; "SXSCatalog_old"; "LVCNR"; "LVCNR_hack"; "EOB"; "EMRI"].
  Definition load_waveform (fuel : nat) (origin : string) (kw : lkwargs) : lg data_dict :=
    if String.eqb origin "LAL" then lift (load_LAL_waveform fuel kw)
    else if String.eqb origin "SXSCatalog" then load_sxs true fuel kw
    else if String.eqb origin "SXSCatalog_old" then load_sxs false fuel kw
    else if String.eqb origin "LVCNR" then load_lvcnr_waveform fuel kw
    else if String.eqb origin "LVCNR_hack" then load_lvcnr_hack fuel kw
    else if String.eqb origin "EOB" then lift (load_EOB_waveform kw)
    else if String.eqb origin "EMRI" then lift (load_EMRI_waveform kw)
    else lraise GenericException.
End Load.
