(** Model of finding extrema by fitting an envelope: /repo/gw_eccentricity/eccDefinitionUsingFrequencyFits.py 15-47 and
    160-1009.  Definitions only; printing, plots and the diagnostic dictionary are left out. *)
From Verif Require Import Base.
Open Scope list_scope.
Open Scope nat_scope.

(** Value f0 and slope f1 of the envelope at the centre time, and the time T where it diverges. *)
Record params := { q_f0 : Q; q_f1 : Q; q_T : Q }.
(** (time, data, phase) at an extremum. *)
Definition point := (Q * Q * Q)%type.

Fixpoint eval_all {A B} (f : A -> res B) (l : list A) : res (list B) :=
  match l with [] => Ok [] | a :: r => do b <- f a; do k <- eval_all f r; Ok (b :: k) end.

(** The data of the measuring object: times (shifted so that the merger is at 0), phase, data for finding extrema, and the
    entries of kwargs_for_fits_methods (144-158); refine_extrema from extra_kwargs (203). *)
Record fits := {
  f_t : list Q; f_phase : list Q; f_data : list Q;
  f_nPN : Q; f_amp_factor : Q; f_nPN_factor : Q; f_prominence : Q; f_distance : Q;
  f_orbits : nat; f_global : Q; f_refine : bool
}.

Section Fits.
  (** [env t0 p t] is A*(T-t)^n of 40-47 for one time (NonFinite where numpy gives inf or nan); [curve_fit t0 ts ys p0 bounds]
      is scipy's fit of the envelope centred at t0; [find_peaks l distance prominence] scipy's; [parabola ts ys] is the
      location of the vertex of the fitted parabola and its value there (985-987, 995); [cubic ts ys t] the value at t of the fitted
      cubic (1000-1002). *)
  Context (env : Q -> params -> Q -> res Q)
          (curve_fit : Q -> list Q -> list Q -> params -> params * params -> res params)
          (find_peaks : list Q -> Z -> Q -> res (list nat))
          (parabola : list Q -> list Q -> res (Q * Q))
          (cubic : list Q -> list Q -> Q -> res Q).

  (** 33-47, envelope_fitting_function.__call__: t.max() of an empty array raises ValueError. *)
  Definition envelope (t0 : Q) (p : params) (ts : list Q) : res (list Q) :=
    do m <- qmax ts;
    if Qlt_bool (q_T p) m then Err GenericException else eval_all (env t0 p) ts.

  (** max(x) - min(x) *)
  Definition spread (l : list Q) : res Q := do a <- qmax l; do b <- qmin l; Ok (a - b)%Q.

  Section Object.
    Context (d : fits) (t0 : Q) (bounds : params * params) (sign : Q).

    (** 937-956, compute_distance_and_prominence. *)
    Definition residual (lo hi : nat) (p : params) : res (list Q) :=
      do fit <- envelope t0 p (slice (f_t d) lo hi);
      Ok (map2 Qminus (slice (f_data d) lo hi) fit).
    Definition distance_and_prominence (lo hi : nat) (p : params) : res (Z * Q) :=
      do maxdt <- qmax (qdiff (slice (f_t d) lo hi));
      do t1 <- zget (f_t d) (Z.of_nat hi - 1); do tl <- get (f_t d) lo;
      do p1 <- zget (f_phase d) (Z.of_nat hi - 1); do pl <- get (f_phase d) lo;
      if Qeq_bool (p1 - pl) 0 then Err NonFinite
      else if Qeq_bool maxdt 0 then Err NonFinite
      else
        let orbit := ((t1 - tl) / (p1 - pl) * 4 * np_pi)%Q in
        do r <- residual lo hi p; do amp <- spread r;
        Ok (q_int (f_distance d * orbit / maxdt)%Q, (amp * f_prominence d)%Q).

    (** 958-1009, get_refined_extrema, for one extremum.  0.05/0 is inf in numpy; NonFinite here. *)
    Definition refine_one (p : params) (x : point) : res point :=
      let '(t, y, ph) := x in
      if Qeq_bool y 0 then Err NonFinite else
      let near := where_idx (fun s => Qlt_bool (Qabs.Qabs (s - t)) ((5 # 100) / y)%Q) (f_t d) in
      if 7 <=? length near then
        do ts <- gather (f_t d) near; do ys <- gather (f_data d) near; do fit <- envelope t0 p ts;
        do v <- parabola ts (map2 Qminus ys fit);
        do f1 <- envelope t0 p [fst v]; do e <- get f1 0;
        do phs <- gather (f_phase d) near; do c <- cubic ts phs (fst v);
        Ok (fst v, (snd v + e)%Q, c)
      else Ok x.

    (** What FindExtremaNearIdxRef returns. *)
    Record found := { r_idx : list nat; r_p : params; r_K : Q; r_ref : nat; r_info : list point }.
    (** The local variables of its loop; [n_old_lohi] is None for (-1, -1), [n_changed] None for -1. *)
    Record near := {
      n_it : nat; n_lo : nat; n_hi : nat; n_ref : nat; n_K : Q; n_p : params; n_old : list Q;
      n_old_lohi : option (nat * nat); n_short : nat; n_changed : option nat
    }.

    (** 736-822: the new search interval, reference index and number of extrema to the right, when the number of extrema
        is not as wished.  increase_idx_ref_if_needed is True in the only call. *)
    Definition move_left (before : nat) (idx : list nat) (lo ref : nat) (K : Q) (nleft nright : nat) : res (nat * nat * nat) :=
      if before <? nleft then
        do a <- get idx (nleft - before - 1); do b <- get idx (nleft - before); Ok ((a + b) / 2, ref, nright)
      else if nleft <? before then
        if lo =? 0 then
          if 2 <=? nright then
            let k := argmax_bool (fun i => ref <=? i) idx in
            do a <- get idx k; do b <- get idx (k + 1); Ok (lo, (a + b) / 2, nright - 1)
          else Ok (lo, ref, nright)
        else
          do x <- get (f_phase d) lo;
          Ok (argmax_bool (fun y => Qlt_bool (x - K * 4 * np_pi * (6 # 10))%Q y) (f_phase d), ref, nright)
      else Ok (lo, ref, nright).
    Definition move_right (after : nat) (idx : list nat) (hi : nat) (K : Q) (nright : nat) : res nat :=
      if after <? nright then
        let k := (Z.of_nat after - Z.of_nat nright)%Z in
        do a <- zget idx k; do b <- zget idx (k - 1); Ok ((a + b) / 2)
      else if nright <? after then
        if hi <? length (f_phase d) then
          do x <- get (f_phase d) hi;
          let h := argmax_bool (fun y => Qlt_bool (x + K * 4 * np_pi * (6 # 10))%Q y) (f_phase d) in
          Ok (if h =? 0 then length (f_phase d) else h)
        else Ok hi
      else Ok hi.

    (** 626-935: one pass of the loop of FindExtremaNearIdxRef. *)
    Definition near_step (before after : nat) (distance : Z) (prominence : Q) (s : near) : res (found + near) :=
      let it := S (n_it s) in
      do r <- residual (n_lo s) (n_hi s) (n_p s);
      do _ <- spread r;
      do peaks <- find_peaks (map (Qmult sign) r) distance prominence;
      let idx := map (Nat.add (n_lo s)) peaks in
      let nleft := length (filter (fun i => i <? n_ref s) idx) in
      let nright := length (filter (fun i => n_ref s <=? i) idx) in
      let n := length idx in
      do ts <- gather (f_t d) idx; do ys <- gather (f_data d) idx; do phs <- gather (f_phase d) idx;
      do _ <- gather r peaks;
      do K <- (if 2 <=? n then do a <- get phs 0; do b <- last_of phs;
                               Ok ((b - a) / (4 * np_pi * inject_Z (Z.of_nat n - 1)))%Q
               else Ok (n_K s));
      do info <- (if f_refine d then eval_all (refine_one (n_p s)) (combine (combine ts ys) phs) else Ok (combine (combine ts ys) phs));
      let short := if nright <? after then S (n_short s) else n_short s in
      let answer ref := Ok (inl {| r_idx := idx; r_p := n_p s; r_K := K; r_ref := ref; r_info := info |}) in
      if (n =? 0) || (20 <? it) then answer (n_ref s)
      else
        let wished := (nleft =? before) && (nright =? after) in
        do u <- (if wished then Ok (n_lo s, n_hi s, n_ref s, nright)
                 else do l <- move_left before idx (n_lo s) (n_ref s) K nleft nright;
                      let '(lo, ref, nright) := l in
                      do hi <- move_right after idx (n_hi s) K nright; Ok (lo, hi, ref, nright));
        let '(lo, hi, ref, nright) := u in
        let moved := negb wished && match n_old_lohi s with None => true | Some (a, b) => negb ((a =? lo) && (b =? hi)) end in
        if moved then
          Ok (inr {| n_it := it; n_lo := lo; n_hi := hi; n_ref := ref; n_K := K; n_p := n_p s; n_old := n_old s;
                     n_old_lohi := Some (lo, hi); n_short := short; n_changed := Some it |})
        else
          let values := map (fun x => snd (fst x)) info in
          do delta <- (if n =? length (n_old s) then do m <- qmax (map2 (fun a b => Qabs.Qabs (a - b)) values (n_old s)); Ok (Some m)
                       else Ok None);
          if (16 <=? it) && (nleft =? before) && (nright =? after) && match n_changed s with Some j => j =? it - 1 | None => false end
          then answer ref
          else if (5 <=? short) || (n <? 5) || (20 <? it) then answer ref
          else if match delta with Some m => Qlt_bool m (1 # 100000000) | None => false end then answer ref
          else
            do p <- curve_fit t0 (map (fun x => fst (fst x)) info) values (n_p s) bounds;
            Ok (inr {| n_it := it; n_lo := lo; n_hi := hi; n_ref := ref; n_K := K; n_p := p; n_old := values;
                       n_old_lohi := n_old_lohi s; n_short := short; n_changed := n_changed s |}).
    Fixpoint near_loop (fuel before after : nat) (distance : Z) (prominence : Q) (s : near) : res found :=
      match fuel with
      | 0 => Err OutOfFuel
      | S k =>
          do x <- near_step before after distance prominence s;
          match x with inl r => Ok r | inr s' => near_loop k before after distance prominence s' end
      end.
    (** 565-625: before the loop. *)
    Definition near_start (before after ref : nat) (K : Q) (p : params) : res near :=
      do x <- get (f_phase d) ref;
      let step := ((42 # 10) * np_pi * K)%Q in
      let lo := argmax_bool (fun y => Qlt_bool (x - step * inject_Z (Z.of_nat before))%Q y) (f_phase d) in
      let hi := argmax_bool (fun y => Qlt_bool (x + step * inject_Z (Z.of_nat after))%Q y) (f_phase d) in
      Ok {| n_it := 0; n_lo := lo; n_hi := if hi =? 0 then length (f_phase d) else hi; n_ref := ref; n_K := K; n_p := p;
            n_old := map (fun _ => 0%Q) (seq 0 (before + after)); n_old_lohi := None; n_short := 0; n_changed := None |}.
    (** 484-935, FindExtremaNearIdxRef. *)
    Definition find_near (fuel before after ref : nat) (K : Q) (p : params) : res found :=
      do s <- near_start before after ref K p;
      do w <- distance_and_prominence (n_lo s) (n_hi s) p;
      near_loop fuel before after (fst w) (snd w) s.

    (** The local variables of the loop 332-436 of find_extrema. *)
    Record outer := {
      o_count : Z; o_ref : nat; o_K : Q; o_p : params; o_extrema : list nat; o_info : list point;
      o_extra : list nat; o_extra_info : list point
    }.
    (** 332-436, one pass. *)
    Definition outer_step (fuel : nat) (s : outer) : res (list nat * list point + outer) :=
      let N := f_orbits d in
      let count := (o_count s + 1)%Z in
      do f <- find_near fuel N (N + 1) (o_ref s) (o_K s) (o_p s);
      let idx := r_idx f in let info := r_info f in
      do terminate <- (if length idx <? 2 * N + 1 then Ok true else do x <- get idx N; Ok (x <? r_ref f));
      do u <- (if 2 * N - 1 <=? length idx then
                 do first <- (if (count =? 1)%Z then do a <- gather idx (seq 0 N); do b <- gather info (seq 0 N); Ok (a, b)
                              else Ok ([], []));
                 let ext := o_extrema s ++ fst first in let inf := o_info s ++ snd first in
                 do x <- get idx N;
                 do v <- (if r_ref f <? x then do y <- get info N;
                                               Ok (ext ++ [x], inf ++ [y], skipn (N + 1) idx, skipn (N + 1) info)
                          else Ok (ext, inf, o_extra s, o_extra_info s));
                 let '(ext, inf, extra, extra_info) := v in
                 if terminate then
                   let more := filter (fun z => r_ref f <? fst z) (combine (skipn (N + 1) idx) (skipn (N + 1) info)) in
                   Ok (ext ++ map fst more, inf ++ map snd more, extra, extra_info)
                 else Ok (ext, inf, extra, extra_info)
               else if terminate then Ok (o_extrema s ++ o_extra s, o_info s ++ o_extra_info s, o_extra s, o_extra_info s)
               else Err GenericException);
      let '(ext, inf, extra, extra_info) := u in
      if (terminate : bool) then Ok (inl (ext, inf))
      else
        do a <- get idx N; do b <- get idx (N + 1);
        if (10000 <? count)%Z then Err GenericException
        else Ok (inr {| o_count := count; o_ref := (a + b) / 2; o_K := r_K f; o_p := r_p f; o_extrema := ext; o_info := inf;
                        o_extra := extra; o_extra_info := extra_info |}).
    Fixpoint outer_loop (fuel inner : nat) (s : outer) : res (list nat * list point) :=
      match fuel with
      | 0 => Err OutOfFuel
      | S k =>
          do x <- outer_step inner s;
          match x with inl r => Ok r | inr s' => outer_loop k inner s' end
      end.
  End Object.

  (** 185-440 of find_extrema, for shifted times: the locations and the (time, data, phase) stored for them. *)
  Definition search (fuel inner : nat) (d : fits) (sign : Q) : res (list nat * list point) :=
    do ph0 <- get (f_phase d) 0;
    let e := argmax_bool (fun y => Qlt_bool (ph0 + f_global d * 4 * np_pi)%Q y) (f_phase d) in
    let idx_end := if e =? 0 then (-1)%Z else Z.of_nat e in
    do tf <- get (f_t d) 0; do tl <- last_of (f_t d);
    let t0 := ((1 # 2) * (tf + tl))%Q in
    do da <- get (f_data d) 0; do db <- zget (f_data d) idx_end;
    let f0 := ((1 # 2) * (da + db))%Q in
    if Qeq_bool t0 0 then Err NonFinite else
    let p0 := {| q_f0 := f0; q_f1 := (- f_nPN d * f0 / - t0)%Q; q_T := 0 |} in
    let bounds := ({| q_f0 := 0; q_f1 := 0; q_T := (8 # 10) * tl |},
                   {| q_f0 := f_amp_factor d * f0; q_f1 := (f_nPN_factor d * f0 / - t0)%Q; q_T := (- t0)%Q |}) in
    do p <- curve_fit t0 (zslice (f_t d) 0 idx_end) (zslice (f_data d) 0 idx_end) p0 bounds;
    let ref := argmax_bool (fun y => Qlt_bool (ph0 + (11 # 10) * inject_Z (Z.of_nat (f_orbits d) - 1) * 4 * np_pi)%Q y) (f_phase d) in
    if ref =? 0 then Err GenericException
    else outer_loop d t0 bounds sign fuel inner
           {| o_count := 0; o_ref := ref; o_K := 11 # 10; o_p := p; o_extrema := []; o_info := []; o_extra := []; o_extra_info := [] |}.

  (** 160-454, find_extrema: the times of the object afterwards and the result.  The array is changed in place: 185 shifts it,
      453 shifts it back. *)
  Definition with_times (d : fits) (t : list Q) : fits :=
    {| f_t := t; f_phase := f_phase d; f_data := f_data d; f_nPN := f_nPN d; f_amp_factor := f_amp_factor d;
       f_nPN_factor := f_nPN_factor d; f_prominence := f_prominence d; f_distance := f_distance d; f_orbits := f_orbits d;
       f_global := f_global d; f_refine := f_refine d |}.
  Definition find_extrema (d : fits) (t_merger : Q) (kind : string) : list Q * res (list nat * list point) :=
    let go sign :=
      let shifted := map (fun t => t - t_merger)%Q (f_t d) in
      match search (Z.to_nat 10001) 21 (with_times d shifted) sign with
      | Ok r => (map (fun t => t + t_merger)%Q shifted, Ok r)
      | Err e => (shifted, Err e)
      end in
    if String.eqb kind "pericenters" then go 1%Q
    else if String.eqb kind "apocenters" then go (-1)%Q
    else (f_t d, Err GenericException).
End Fits.
