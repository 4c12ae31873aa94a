(** Model of how the waveform dictionary is read, checked, transformed and truncated:
    /repo/gw_eccentricity/eccDefinition.py 597-1174, load_data.py 1554-1676 and utils.py 11-35.  Definitions only.

    The caller's dictionaries are objects with an address, so that a change made through one of them is seen by the
    caller.  Dictionaries created inside a call are not shared with anyone and are plain values.  Arrays are values: the
    modelled code never writes into one (the in-place time shift of the fit methods is modelled in FitsModel.v). *)
From Verif Require Import Base UtilsModel.
Open Scope string_scope.
Open Scope nat_scope.

(** a mode label (l, m) and a dictionary of modes *)
Definition mode := (Z * Z)%type.
Definition mode_eqb (a b : mode) : bool := Z.eqb (fst a) (fst b) && Z.eqb (snd a) (snd b).
Definition mdict (A : Type) := dict mode A.
Definition mget {A} (d : mdict A) (m : mode) : res A := dget mode_eqb d m.
Definition mmem {A} (d : mdict A) (m : mode) : bool := dmem mode_eqb d m.

(** Arrays are combined elementwise; numpy raises ValueError for unequal lengths.  (Its broadcasting of length-one arrays
    is not modelled.) *)
Definition zip_with (f : Q -> Q -> Q) (a b : list Q) : res (list Q) :=
  if length a =? length b then Ok (map2 f a b) else Err ValueError.

Section Data.
  (** Complex arrays and what numpy and scri do with them are external. *)
  Variable C : Type.
  Variable cabs : C -> list Q.                       (* np.abs *)
  Variable cphase : C -> list Q.                     (* -np.unwrap(np.angle(.)) *)
  Variable cpolar : list Q -> list Q -> res C.  (* amp * np.exp(-1j * phase) *)
  Variable rotate : list Q -> list C -> res (list C).  (* scri: the five l = 2 modes in the coprecessing frame *)
  Variable qsqrt : Q -> Q.                           (* np.sqrt on one entry *)

  (** Values stored under the keys of a waveform dictionary. *)
  Inductive dval :=
  | VArr (a : list Q)              (* an array *)
  | VReal (d : mdict (list Q))     (* a dictionary of real modes that nobody else holds *)
  | VCplx (d : mdict C)            (* the same for complex modes *)
  | VRef (p : nat)                 (* an object of the caller *)
  | VOther.                        (* anything else *)
  Inductive obj :=
  | OReal (d : mdict (list Q))
  | OCplx (d : mdict C)
  | OTop (d : sdict dval).
  Definition heap := list obj.

  (** Actions: the caller's objects are threaded through and keep their changes when an exception is raised; messages are
      logged. *)
  Definition M (A : Type) := heap -> heap * lg A.
  Definition mret {A} (a : A) : M A := fun h => (h, lret a).
  Definition mbind {A B} (m : M A) (k : A -> M B) : M B := fun h =>
    let x := m h in
    match snd (snd x) with
    | Ok a => let y := k a (fst x) in (fst y, ((fst (snd x) ++ fst (snd y))%list, snd (snd y)))
    | Err e => (fst x, (fst (snd x), Err e))
    end.
  Notation "x <~ m ;; k" := (mbind m (fun x => k)) (at level 61, m at next level, right associativity).
  Definition mlift {A} (r : res A) : M A := fun h => (h, lift r).
  Definition mlog {A} (r : lg A) : M A := fun h => (h, r).
  Definition mread {A} (f : heap -> res A) : M A := fun h => (h, lift (f h)).

  Definition real_of (h : heap) (v : dval) : res (mdict (list Q)) :=
    match v with
    | VReal d => Ok d
    | VRef p => match nth_error h p with Some (OReal d) => Ok d | _ => Err TypeError end
    | _ => Err TypeError
    end.
  Definition cplx_of (h : heap) (v : dval) : res (mdict C) :=
    match v with
    | VCplx d => Ok d
    | VRef p => match nth_error h p with Some (OCplx d) => Ok d | _ => Err TypeError end
    | _ => Err TypeError
    end.
  Definition arr_of (v : dval) : res (list Q) := match v with VArr a => Ok a | _ => Err TypeError end.

  (** The dictionary being worked on: the caller's own, or a private copy. *)
  Inductive place := Caller (p : nat) | Own (d : sdict dval).
  Definition top_of (h : heap) (p : place) : res (sdict dval) :=
    match p with
    | Own d => Ok d
    | Caller q => match nth_error h q with Some (OTop d) => Ok d | _ => Err TypeError end
    end.
  Fixpoint set_nth {A} (l : list A) (i : nat) (x : A) : list A :=
    match l, i with
    | [], _ => []
    | _ :: r, 0 => x :: r
    | y :: r, S j => y :: set_nth r j x
    end.
  (** data_dict.update(e) *)
  Definition update_place (p : place) (e : sdict dval) : M place := fun h =>
    match p with
    | Own d => (h, lret (Own (dupdate String.eqb d e)))
    | Caller q => match nth_error h q with
                  | Some (OTop d) => (set_nth h q (OTop (dupdate String.eqb d e)), lret (Caller q))
                  | _ => (h, lift (Err TypeError))
                  end
    end.

  (** eccDefinition.py 670-693, get_amplm_from_dataDict, for one suffix: the amplitudes of the modes. *)
  Definition amplm_for (h : heap) (d : sdict dval) (suffix : string) : res (mdict (list Q)) :=
    match slookup d ("amplm" ++ suffix) with
    | Some v => real_of h v
    | None =>
        match slookup d ("hlm" ++ suffix) with
        | Some v => do m <- cplx_of h v; Ok (map (fun kc => (fst kc, cabs (snd kc))) m)
        | None => if String.eqb suffix "" then Err GenericException else Ok []
        end
    end.
  (** eccDefinition.py 695-721, get_phaselm_from_dataDict, for one suffix. *)
  Definition phaselm_for (h : heap) (d : sdict dval) (suffix : string) : res (mdict (list Q)) :=
    match slookup d ("phaselm" ++ suffix) with
    | Some v => real_of h v
    | None =>
        match slookup d ("hlm" ++ suffix) with
        | Some v => do m <- cplx_of h v; Ok (map (fun kc => (fst kc, cphase (snd kc))) m)
        | None => if String.eqb suffix "" then Err GenericException else Ok []
        end
    end.
  (** The returned dictionary has a second entry "..._zeroecc" only when it is not empty (690-692, 718-720). *)
  Definition get_amplm_from_dataDict (h : heap) (d : sdict dval) : res (sdict dval) :=
    do a <- amplm_for h d ""; do z <- amplm_for h d "_zeroecc";
    Ok (("amplm", VReal a) :: match z with [] => [] | _ => [("amplm_zeroecc", VReal z)] end).
  Definition get_phaselm_from_dataDict (h : heap) (d : sdict dval) : res (sdict dval) :=
    do a <- phaselm_for h d ""; do z <- phaselm_for h d "_zeroecc";
    Ok (("phaselm", VReal a) :: match z with [] => [] | _ => [("phaselm_zeroecc", VReal z)] end).

  (** eccDefinition.py 723-730, get_omegalm_from_phaselm. *)
  Fixpoint map_modes {A B} (f : A -> res B) (d : mdict A) : res (mdict B) :=
    match d with
    | [] => Ok []
    | (k, a) :: r => do b <- f a; do s <- map_modes f r; Ok ((k, b) :: s)
    end.
  Definition get_omegalm_from_phaselm (t : list Q) (phaselm : mdict (list Q)) : res (mdict (list Q)) :=
    match phaselm with
    | [] => Ok []            (* t[1] - t[0] is inside the loop *)
    | _ => do t1 <- get t 1; do t0 <- get t 0; map_modes (fun y => time_deriv_4thOrder y (t1 - t0)) phaselm
    end.

  (** eccDefinition.py 614-668, get_amp_phase_omega_data.  A given omegalm or omegalm_zeroecc is taken over as it is: the
      new dictionary then refers to the caller's object. *)
  Definition get_amp_phase_omega_data (h : heap) (d : sdict dval) : res (sdict dval) :=
    do a <- get_amplm_from_dataDict h d;
    do p <- get_phaselm_from_dataDict h d;
    let ap := (a ++ p)%list in
    do phaselm <- (do v <- sget ap "phaselm"; real_of h v);
    do w <- match slookup d "omegalm" with
            | Some v => Ok v
            | None => do t <- (do v <- sget d "t"; arr_of v); do o <- get_omegalm_from_phaselm t phaselm; Ok (VReal o)
            end;
    do z <- match slookup d "omegalm_zeroecc" with
            | Some v => Ok [("omegalm_zeroecc", v)]
            | None =>
                match slookup ap "phaselm_zeroecc", slookup d "t_zeroecc" with
                | Some pv, Some tv =>
                    do ph <- real_of h pv; do t <- arr_of tv; do o <- get_omegalm_from_phaselm t ph;
                    Ok [("omegalm_zeroecc", VReal o)]
                | _, _ => Ok []
                end
            end;
    Ok (ap ++ ("omegalm", w) :: z)%list.

  (** load_data.py 1554-1594, package_modes_for_scri with ell_min = ell_max = 2, the values its caller uses (general
      ell_max in ModesModel.v): the modes in the order m = -2..2. *)
  Definition ell2 : list mode := [(2, -2); (2, -1); (2, 0); (2, 1); (2, 2)]%Z.
  Fixpoint pick_modes (d : mdict C) (ms : list mode) : res (list C) :=
    match ms with
    | [] => Ok []
    | m :: r => match dlookup mode_eqb d m with
                | Some c => do s <- pick_modes d r; Ok (c :: s)
                | None => Err GenericException
                end
    end.
  Definition package_ell2 (d : mdict C) : res (list C) :=
    do _ <- mget d (2, 2)%Z; pick_modes d ell2.

  (** copy.deepcopy of a waveform dictionary: references are replaced by private copies. *)
  Definition deep_val (h : heap) (v : dval) : dval :=
    match v with
    | VRef p => match nth_error h p with Some (OReal d) => VReal d | Some (OCplx d) => VCplx d | _ => VOther end
    | v => v
    end.
  Definition deepcopy (h : heap) (d : sdict dval) : sdict dval := map (fun kv => (fst kv, deep_val h (snd kv))) d.

  (** load_data.py 1618-1676, get_coprecessing_data_dict with the default ell_min = ell_max = 2. *)
  Definition get_coprecessing_data_dict (h : heap) (d : sdict dval) (tag : string) : res (sdict dval) :=
    do m <- (do v <- sget d ("hlm" ++ tag); cplx_of h v);
    do cols <- package_ell2 m;
    do t <- (do v <- sget d ("t" ++ tag); arr_of v);
    do rot <- rotate t cols;
    Ok (sset (deepcopy h d) ("hlm" ++ tag) (VCplx (combine ell2 rot))).

  (** eccDefinition.py 980-1002, get_hlm_from_amplm_phaselm. *)
  Fixpoint polar_modes (amp phase : mdict (list Q)) : res (mdict C) :=
    match amp with
    | [] => Ok []
    | (k, a) :: r => do p <- mget phase k; do c <- cpolar a p; do s <- polar_modes r phase; Ok ((k, c) :: s)
    end.
  Definition get_hlm_from_amplm_phaselm (h : heap) (a p : sdict dval) : res (sdict dval) :=
    let one tag := do av <- sget a ("amplm" ++ tag); do am <- real_of h av;
                   match am with
                   | [] => Ok ("hlm" ++ tag, VCplx [])
                   | _ => do pv <- sget p ("phaselm" ++ tag); do pm <- real_of h pv;
                          do m <- polar_modes am pm; Ok ("hlm" ++ tag, VCplx m)
                   end in
    do e <- one "";
    if smem a "amplm_zeroecc" then do z <- one "_zeroecc"; Ok [e; z] else Ok [e].

  (** eccDefinition.py 920-978, transform_inertial_to_coprecessing. *)
  Definition transform_inertial_to_coprecessing (level : Z) (pl : place) (tag : string) : M (sdict dval) :=
    d <~ mread (fun h => top_of h pl) ;;
    d1 <~ (if smem d ("hlm" ++ tag) then mread (fun h => get_coprecessing_data_dict h d tag)
           else
             hlm <~ mread (fun h => do a <- get_amplm_from_dataDict h d; do p <- get_phaselm_from_dataDict h d;
                                    get_hlm_from_amplm_phaselm h a p) ;;
             pl2 <~ update_place pl hlm ;;
             d2 <~ mread (fun h => top_of h pl2) ;;
             d3 <~ mread (fun h => get_coprecessing_data_dict h d2 tag) ;;
             _ <~ mlog (dbg "removing inertial frame amplm and phaselm" level false) ;;
             mret (spop (spop d3 ("amplm" ++ tag)) ("phaselm" ++ tag))) ;;
    if smem d1 ("omegalm" ++ tag) then
      _ <~ mlog (dbg "removing inertial frame omegalm" level false) ;; mret (spop d1 ("omegalm" ++ tag))
    else mret d1.

  (** utils.py 11-35, amplitude_using_all_modes.  An entry is a complex or a real array; for "amplm" the squares of complex
      entries are not modelled (TypeError).  Without any mode the sum is the number 0, which the only caller cannot use. *)
  Definition mode_square (data_type : string) (x : C + list Q) : res (list Q) :=
    if String.eqb data_type "hlm" then
      Ok (map (fun y => y * y)%Q match x with inl c => cabs c | inr a => map Qabs a end)
    else if String.eqb data_type "amplm" then
      match x with inl _ => Err TypeError | inr a => Ok (map (fun y => y * y)%Q a) end
    else Err KeyError.
  Fixpoint sum_squares (data_type : string) (acc : list Q) (d : mdict (C + list Q)) : res (list Q) :=
    match d with
    | [] => Ok acc
    | (_, x) :: r => do q <- mode_square data_type x; do s <- zip_with Qplus acc q; sum_squares data_type s r
    end.
  Definition amplitude_using_all_modes (data_type : string) (d : mdict (C + list Q)) : res (list Q) :=
    match d with
    | [] => Err TypeError
    | (_, x) :: r => do q <- mode_square data_type x; do s <- sum_squares data_type q r; Ok (map qsqrt s)
    end.
  Definition real_modes (d : mdict (list Q)) : mdict (C + list Q) := map (fun ka => (fst ka, inr (snd ka))) d.

  (** eccDefinition.py 1004-1065, get_amp_phase_omega_gw. *)
  Definition modes_at (h : heap) (d : sdict dval) (k : string) : res (mdict (list Q)) := do v <- sget d k; real_of h v.
  Definition get_amp_phase_omega_gw (h : heap) (precessing : bool) (d : sdict dval) (tag : string)
    : res (list Q * list Q * list Q) :=
    if negb precessing then
      do am <- modes_at h d ("amplm" ++ tag); do a <- mget am (2, 2)%Z;
      do pm <- modes_at h d ("phaselm" ++ tag); do p <- mget pm (2, 2)%Z;
      do om <- modes_at h d ("omegalm" ++ tag); do o <- mget om (2, 2)%Z;
      Ok (a, p, o)
    else
      do am <- modes_at h d ("amplm" ++ tag);
      if negb (mmem am (2, -2)%Z) then Err GenericException
      else
        do pm <- modes_at h d ("phaselm" ++ tag);
        if negb (mmem pm (2, -2)%Z) then Err GenericException
        else
          let half f u v := zip_with (fun x y => (1 # 2) * f x y)%Q u v in
          do a1 <- mget am (2, 2)%Z; do a2 <- mget am (2, -2)%Z; do a <- half Qplus a1 a2;
          do p1 <- mget pm (2, 2)%Z; do p2 <- mget pm (2, -2)%Z; do p <- half Qminus p1 p2;
          do om <- modes_at h d ("omegalm" ++ tag);
          do o1 <- mget om (2, 2)%Z; do o2 <- mget om (2, -2)%Z; do o <- half Qminus o1 o2;
          Ok (a, p, o).

  (** eccDefinition.py 1144-1174, get_index_at_num_orbits_earlier_than_merger. *)
  Definition index_before_merger (phase : list Q) (phase_merger num_orbits : Q) : res nat :=
    let target := (phase_merger - 4 * np_pi * num_orbits)%Q in
    do p0 <- get phase 0;
    if Qlt_bool target p0 then Err GenericException
    else argmin (map (fun y => Qabs (y - target)) phase).

  (** eccDefinition.py 1067-1142, get_width_for_peak_finder_from_phase_gw with num_orbits_before_merger = 2. *)
  Definition width_from_phase (t phase : list Q) (phase_merger : Q) : res Z :=
    do i2 <- index_before_merger phase phase_merger 2; do t2 <- get t i2;
    do i1 <- index_before_merger phase phase_merger 1; do t1 <- get t i1;
    do u1 <- get t 1; do u0 <- get t 0;
    if Qeq_bool (u1 - u0) 0 then Err NonFinite
    else Ok (q_int ((t1 - t2) / (u1 - u0) / 4)).

  (** newDataDict[k][mode] = newDataDict[k][mode][:idx] for all modes: a private dictionary is replaced, an object of the
      caller is written to. *)
  Definition cut_modes (idx : nat) (d : mdict (list Q)) : mdict (list Q) := map (fun ka => (fst ka, firstn idx (snd ka))) d.
  Definition cut_entry (idx : nat) (d : sdict dval) (k : string) : M (sdict dval) := fun h =>
    match sget d k with
    | Err e => (h, lift (Err e))
    | Ok (VReal m) => (h, lret (sset d k (VReal (cut_modes idx m))))
    | Ok (VRef p) => match nth_error h p with
                     | Some (OReal m) => (set_nth h p (OReal (cut_modes idx m)), lret d)
                     | _ => (h, lift (Err TypeError))
                     end
    | Ok _ => (h, lift (Err TypeError))
    end.

  (** eccDefinition.py 824-846: which representations of the waveform are accepted. *)
  Definition check_representation (d : sdict dval) : res unit :=
    if smem d "hlm" && (smem d "amplm" || smem d "phaselm") then Err GenericException
    else if smem d "hlm_zeroecc" && (smem d "amplm_zeroecc" || smem d "phaselm_zeroecc") then Err GenericException
    else if negb (smem d "hlm") && (negb (smem d "amplm") || negb (smem d "phaselm")) then Err GenericException
    else Ok tt.

  (** the values returned by process_data_dict *)
  Record processed := {
    p_dict : sdict dval;       (* newDataDict *)
    p_t_merger : Q;
    p_amp_merger : Q;
    p_width : Z
  }.
  (** What is known about the waveform before it is truncated. *)
  Record full := {
    f_dict : sdict dval; f_t : list Q; f_t_merger : Q; f_amp_merger : Q; f_width : Z; f_phase : list Q; f_phase_merger : Q
  }.
  (** eccDefinition.py 824-888: the part of process_data_dict before the truncation. *)
  Definition read_waveform (level : Z) (precessing : bool) (frame : string) (p : nat) : M full :=
    d0 <~ mread (fun h => top_of h (Caller p)) ;;
    _ <~ mlift (check_representation d0) ;;
    d <~ (if precessing && String.eqb frame "inertial" then
            _ <~ mlog (dbg "transforming to the coprecessing frame" level false) ;;
            d1 <~ transform_inertial_to_coprecessing level (Caller p) "" ;;
            if smem d1 "hlm_zeroecc" || smem d1 "amplm_zeroecc"
            then transform_inertial_to_coprecessing level (Own d1) "_zeroecc" else mret d1
          else mret d0) ;;
    t <~ mlift (match slookup d "t" with Some v => arr_of v | None => Err GenericException end) ;;
    apo <~ mread (fun h => get_amp_phase_omega_data h d) ;;
    let nd := (("t", VArr t) :: match slookup d "t_zeroecc" with Some v => [("t_zeroecc", v)] | None => [] end ++ apo)%list in
    mread (fun h =>
      do amplm <- modes_at h nd "amplm";
      do amp <- amplitude_using_all_modes "amplm" (real_modes amplm);
      do tm <- peak_time_via_quadratic_fit t amp;
      let t_merger := fst tm in
      do mi <- argmin (map (fun x => Qabs (x - t_merger)) t);
      do gw <- get_amp_phase_omega_gw h precessing nd "";
      let '(amp_gw, phase_gw, omega_gw) := gw in
      do am <- get amp_gw mi;
      do pm <- get phase_gw mi;
      do om <- get omega_gw mi;
      do p0 <- get phase_gw 0;
      if Qlt_bool pm p0 then Err GenericException
      else if Qlt_bool om 0 then Err GenericException
      else
        do width <- width_from_phase t phase_gw pm;
        Ok {| f_dict := nd; f_t := t; f_t_merger := t_merger; f_amp_merger := am; f_width := width; f_phase := phase_gw;
              f_phase_merger := pm |}).
  (** eccDefinition.py 889-917: the truncation. *)
  Definition truncate (num_orbits : option Q) (f : full) : M (sdict dval) :=
    match num_orbits with
    | None => mret (f_dict f)
    | Some n =>
        if Qlt_bool n 0 then mlift (Err ValueError)
        else
          idx <~ mlift (index_before_merger (f_phase f) (f_phase_merger f) n) ;;
          d1 <~ cut_entry idx (f_dict f) "amplm" ;;
          d2 <~ cut_entry idx d1 "phaselm" ;;
          d3 <~ cut_entry idx d2 "omegalm" ;;
          mret (sset d3 "t" (VArr (firstn idx (f_t f))))
    end.
  (** eccDefinition.py 732-918, process_data_dict. *)
  Definition process_data_dict (level : Z) (precessing : bool) (frame : string) (num_orbits : option Q) (p : nat)
    : M processed :=
    f <~ read_waveform level precessing frame p ;;
    d <~ truncate num_orbits f ;;
    mret {| p_dict := d; p_t_merger := f_t_merger f; p_amp_merger := f_amp_merger f; p_width := f_width f |}.
End Data.
