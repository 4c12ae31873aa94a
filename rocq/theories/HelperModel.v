(** Helpers around the measurement: compare_methods.py, truncate_waveform_by_flow.py, packing of modes and removal of junk in
    load_data.py.  Definitions only.  Numbers are exact rationals. *)
From Coq Require Import Qabs Qround.
From Verif Require Import Base UtilsModel MeasureModel DataModel InitModel FilterModel.
Open Scope string_scope.
Open Scope nat_scope.

(** ** compare_methods.py *)
(** np.testing.assert_allclose of two arrays with the default tolerances *)
Definition assert_allclose (a b : list Q) : res unit :=
  if (length a =? length b) && forallb (fun p => Qle_bool (Qabs (fst p - snd p)) ((1 # 10000000) * Qabs (snd p))) (combine a b)
  then Ok tt else Err AssertionError.
(** np.mod for p > 0 *)
Definition np_mod (x p : Q) : Q := (x - p * inject_Z (Qfloor (x / p)))%Q.
(** np.unwrap: what is added to a step of the data *)
Definition unwrap_step (dd : Q) : Q :=
  if Qlt_bool (Qabs dd) np_pi then 0%Q
  else let m := (np_mod (dd + np_pi) (2 * np_pi) - np_pi)%Q in
       ((if Qeq_bool m (- np_pi) && Qlt_bool 0 dd then np_pi else m) - dd)%Q.
(** np.unwrap *)
Definition unwrap (l : list Q) : list Q :=
  match l with [] => [] | a :: r => a :: map2 Qplus r (cumsum (map unwrap_step (qdiff l))) end.

(** What is used of a measuring object after a measurement.  (A scalar counts as an array of one element.) *)
Record measured := { ms_tref_in : list Q; ms_tmin : Q; ms_tmax : Q; ms_tref_out : list Q; ms_ecc : list Q; ms_ano : list Q }.
Record comparison := {
  cp_t : list Q; cp_ecc_errors : list Q; cp_ano_errors : list Q; cp_ecc1 : list Q; cp_ecc2 : list Q; cp_ano1 : list Q; cp_ano2 : list Q
}.
(** v[(t >= lo) & (t < hi)] *)
Definition masked {A} (lo hi : Q) (t : list Q) (v : list A) : res (list A) :=
  if length t =? length v then gather v (where_idx (fun x => Qle_bool lo x && Qlt_bool x hi) t) else Err IndexError.
(** compare_methods.py 6-104, compute_errors_between_methods *)
Definition compute_errors_between_methods (o1 o2 : measured) (tmin tmax : option Q) : res comparison :=
  do _ <- assert_allclose (ms_tref_in o1) (ms_tref_in o2);
  let lo := Qmaxb (ms_tmin o1) (ms_tmin o2) in
  let hi := Qminb (ms_tmax o1) (ms_tmax o2) in
  do lo <- match tmin with None => Ok lo | Some x => if Qlt_bool hi x then Err GenericException else Ok (Qmaxb lo x) end;
  do hi <- match tmax with None => Ok hi | Some x => if Qlt_bool x lo then Err GenericException else Ok (Qminb hi x) end;
  do t1 <- masked lo hi (ms_tref_out o1) (ms_tref_out o1);
  do t2 <- masked lo hi (ms_tref_out o2) (ms_tref_out o2);
  do _ <- assert_allclose t1 t2;
  do e1 <- masked lo hi (ms_tref_out o1) (ms_ecc o1);
  do e2 <- masked lo hi (ms_tref_out o2) (ms_ecc o2);
  do ee <- zip_with (fun a b => Qabs (a - b)) e1 e2;
  do m1 <- masked lo hi (ms_tref_out o1) (ms_ano o1);
  do m2 <- masked lo hi (ms_tref_out o2) (ms_ano o2);
  do me <- zip_with (fun a b => Qabs (a - b)) (unwrap m1) (unwrap m2);
  Ok {| cp_t := t1; cp_ecc_errors := ee; cp_ano_errors := me; cp_ecc1 := e1; cp_ecc2 := e2; cp_ano1 := m1; cp_ano2 := m2 |}.

(** ** truncate_waveform_by_flow.py *)
Section Truncate.
  Context {C V X : Type} (L : library C V).
  (** lines 82-115, everything after the constructor: any function of the object *)
  Variable rest : object -> W (C := C) X.
  (** the arguments of the constructor at line 78: its defaults *)
  Definition no_reference : args :=
    {| a_tref := None; a_fref := None; a_num := Some 2%Q; a_precessing := false; a_frame := "inertial"; a_level := 0 |}.
  (** truncate_waveform_by_flow.py 7-117; the waveform is None or an object of the caller's.  With an unknown method the
      object is never made and its name is read. *)
  Definition truncate_waveform_by_flow (d : option nat) (method : string) : W (C := C) X :=
    match d with
    | None => wlift (Err ValueError)
    | Some p => if existsb (String.eqb method) available_methods then wbind (build L method no_reference p) rest
                else wlift (Err NameError)
    end.
End Truncate.

(** ** load_data.py: modes as columns *)
(** range(a, b) *)
Definition zrange (a b : Z) : list Z := map (fun k => (a + Z.of_nat k)%Z) (seq 0 (Z.to_nat (b - a))).
(** the (l, m) of both loops, and the LM of scri.WaveformModes *)
Definition mode_list (ell_min ell_max : Z) : list mode :=
  flat_map (fun l => map (fun m => (l, m)) (zrange (- l) (l + 1))) (zrange ell_min (ell_max + 1)).
Section Modes.
  Context {K : Type} (zero : K).
  (** result[:, i] = v, where result has n rows.  An array of one element is repeated. *)
  Definition as_column (n : nat) (v : list K) : res (list K) :=
    if length v =? n then Ok v else match v with [x] => Ok (repeat x n) | _ => Err ValueError end.
  Fixpoint set_column (cols : list (list K)) (i : nat) (c : list K) : res (list (list K)) :=
    match cols, i with
    | [], _ => Err IndexError
    | _ :: r, O => Ok (c :: r)
    | x :: r, S j => do s <- set_column r j c; Ok (x :: s)
    end.
  Fixpoint fill (d : mdict (list K)) (n : nat) (ms : list mode) (i : nat) (cols : list (list K)) : res (list (list K)) :=
    match ms with
    | [] => Ok cols
    | m :: r => match dlookup mode_eqb d m with
                | None => Err GenericException
                | Some v => do c <- as_column n v; do cols' <- set_column cols i c; fill d n r (S i) cols'
                end
    end.
  (** load_data.py 1554-1594, package_modes_for_scri: the columns of the result.  (The index is checked before the shape in
      numpy; which of the two exceptions comes first is not modelled.) *)
  Definition package_modes_for_scri (d : mdict (list K)) (ell_min ell_max : Z) : res (list (list K)) :=
    do h <- mget d (2, 2)%Z;
    let n_elem := ((ell_max + 3) * (ell_max - 1))%Z in
    if (n_elem <? 0)%Z then Err ValueError
    else fill d (length h) (mode_list ell_min ell_max) 0 (repeat (repeat zero (length h)) (Z.to_nat n_elem)).
  (** load_data.py 1597-1615, unpack_scri_modes, with LM and index(l, m) = l (l + 1) - ell_min^2 + m of scri *)
  Fixpoint unpack_from (cols : list (list K)) (ell_min : Z) (ms : list mode) : res (mdict (list K)) :=
    match ms with
    | [] => Ok []
    | (l, m) :: r => do c <- (let i := (l * (l + 1) - ell_min * ell_min + m)%Z in if (i <? 0)%Z then Err IndexError else get cols (Z.to_nat i));
                     do s <- unpack_from cols ell_min r; Ok (((l, m), c) :: s)
    end.
  Definition unpack_scri_modes (cols : list (list K)) (ell_min ell_max : Z) : res (mdict (list K)) :=
    unpack_from cols ell_min (mode_list ell_min ell_max).
End Modes.

(** ** load_data.py: junk at the start of numerical waveforms *)
Section Junk.
  Context {K : Type}.
  Variable phase : list K -> list Q. (* -np.unwrap(np.angle(.)) *)
  (** t[i:] and modes_dict[key][i:] for every key *)
  Definition drop_start (i : nat) (t : list Q) (d : mdict (list K)) : list Q * mdict (list K) :=
    (skipn i t, map (fun kv => (fst kv, skipn i (snd kv))) d).
  (** load_data.py 1421-1454, reomve_junk_from_nr_data *)
  Definition remove_junk (t : list Q) (d : mdict (list K)) (orbits : Q) : res (list Q * mdict (list K)) :=
    do h <- mget d (2, 2)%Z;
    let ph := phase h in
    do p0 <- get ph 0;
    do i <- argmin (map (fun p => Qabs (p - (p0 + orbits * 4 * np_pi))) ph);
    Ok (drop_start i t d).
  (** load_data.py 1513-1551, get_num_orbits_duration_from_horizon_data, given time and orbital phase of the black holes *)
  Definition orbits_duration (time ph : list Q) (orbits : Q) : res Q :=
    do p0 <- get ph 0;
    do i <- argmin (map (fun p => Qabs (p - (p0 + orbits * 2 * np_pi))) ph);
    do a <- get time i; do b <- get time 0; Ok (a - b)%Q.
  (** load_data.py 1457-1510, remove_junk_from_sxs_catalogformat_using_horizons_data *)
  Definition remove_junk_horizons (t : list Q) (d : mdict (list K)) (orbits : Q) (time ph : list Q) : res (list Q * mdict (list K)) :=
    do du <- orbits_duration time ph orbits;
    do i <- argmin (map (fun x => Qabs (x - du)) t);
    Ok (drop_start i t d).
End Junk.
