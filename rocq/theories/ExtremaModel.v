(** Model of the clean-up of detected extrema, /repo/gw_eccentricity/eccDefinition.py 1261-1533,
    and of get_apocenters_from_pericenters 4439-4465.  Definitions only.
    Extrema locations are numpy integer arrays: lists of naturals. *)
From Verif Require Import Base UtilsModel.
Open Scope nat_scope.

(** numpy a/b > c and a/b < c for finite a, b, c: with b = 0 the quotient is +inf, -inf or nan. *)
Definition ratio_gt (a b c : Q) : bool :=
  if Qeq_bool b 0 then Qlt_bool 0 a else Qlt_bool c (a / b).
Definition ratio_lt (a b c : Q) : bool :=
  if Qeq_bool b 0 then Qlt_bool a 0 else Qlt_bool (a / b) c.

Definition keep_le (l : list nat) (x : nat) : list nat := filter (fun y => y <=? x) l.
Definition keep_ge (l : list nat) (x : nat) : list nat := filter (fun y => x <=? y) l.

(** eccDefinition.py 1261-1304, drop_extra_extrema_at_ends. *)
Definition drop_extra_extrema_at_ends (level : Z) (pericenters apocenters : list nat)
  : lg (list nat * list nat) :=
  let! a_last := lift (last_of apocenters) in
  let p_at_end := filter (fun p => a_last <? p) pericenters in
  let! p1 := (match p_at_end with
              | p0 :: _ :: _ => let! _ := dbg "extra pericenters at the end" level false in
                                lret (keep_le pericenters p0)
              | _ => lret pericenters end) in
  let! p_last := lift (last_of p1) in
  let a_at_end := filter (fun a => p_last <? a) apocenters in
  let! a1 := (match a_at_end with
              | a0 :: _ :: _ => let! _ := dbg "extra apocenters at the end" level false in
                                lret (keep_le apocenters a0)
              | _ => lret apocenters end) in
  let! a_first := lift (get a1 0) in
  let p_at_start := filter (fun p => p <? a_first) p1 in
  let! p2 := (if 1 <? length p_at_start
              then let! _ := dbg "extra pericenters at the start" level false in
                   let! x := lift (last_of p_at_start) in lret (keep_ge p1 x)
              else lret p1) in
  let! p_first := lift (get p2 0) in
  let a_at_start := filter (fun a => a <? p_first) a1 in
  let! a2 := (if 1 <? length a_at_start
              then let! _ := dbg "extra apocenters at the start" level false in
                   let! x := lift (last_of a_at_start) in lret (keep_ge a1 x)
              else lret a1) in
  lret (p2, a2).

(** eccDefinition.py 1306-1406, drop_extrema_if_extrema_jumps.
    Ratios are kept as (numerator, denominator) pairs.  The time values and pair indices that only
    enter the message (1355-1360, 1385-1390) are dropped; those accesses are in range whenever
    the ones modelled here are. *)
Definition phase_ratios (d : list Q) : list (Q * Q) := combine (tl d) d.
Definition drop_extrema_if_extrema_jumps (level : Z) (phase : list Q) (loc : list nat) (max_r : Q)
  : lg (list nat) :=
  let! ph := lift (gather phase loc) in
  let d := qdiff ph in
  let r := phase_ratios d in
  let too_large := where_idx (fun nd => ratio_gt (fst nd) (snd nd) max_r) r in
  let mid := length r / 2 in
  let! loc1 :=
    (match too_large with
     | first :: _ =>
         if mid <? first then
           let! _ := dbg "extrema too widely separated near the end" level false in
           let! x := lift (get loc (first + 1)) in
           lret (keep_le loc x)
         else lret loc
     | [] => lret loc
     end) in
  let too_small := where_idx (fun nd => ratio_lt (fst nd) (snd nd) (1 / max_r)) r in
  match last_of too_small with
  | Ok last =>
      if last <? mid then
        let! _ := dbg "extrema too widely separated near the start" level false in
        let! x := lift (get loc1 last) in
        lret (keep_ge loc1 x)
      else lret loc1
  | Err _ => lret loc1
  end.

(** eccDefinition.py 1408-1471, drop_extrema_if_too_close, with the default minimum 4*np.pi.
    The message at 1453-1468 reads extrema_location[last_index - 1], which is the last element when
    last_index = 0; it only enters the text. *)
Definition four_pi : Q := 4 * np_pi.
Definition drop_extrema_if_too_close (level : Z) (phase : list Q) (loc : list nat) (min_diff : Q)
  : lg (list nat) :=
  let! ph := lift (gather phase loc) in
  let d := qdiff ph in
  let too_close := where_idx (fun x => Qlt_bool x min_diff) d in
  let mid := length d / 2 in
  match too_close, last_of too_close with
  | first :: _, Ok last =>
      let! loc1 :=
        (if mid <? first then
           let! _ := dbg "extrema too close in the second half" level false in
           let! x := lift (get loc first) in
           lret (keep_le loc x)
         else lret loc) in
      if last <? mid then
        let! _ := dbg "extrema too close in the first half" level false in
        let! x := lift (get loc1 last) in
        lret (keep_ge loc1 x)
      else lret loc1
  | _, _ => lret loc
  end.

(** eccDefinition.py 1473-1533, get_good_extrema. *)
Definition max_ratio : Q := 3 # 2.
Definition get_good_extrema (level : Z) (phase : list Q) (pericenters apocenters : list nat)
  : lg (list nat * list nat) :=
  let! p := drop_extrema_if_extrema_jumps level phase pericenters max_ratio in
  let! a := drop_extrema_if_extrema_jumps level phase apocenters max_ratio in
  let! p := drop_extrema_if_too_close level phase p four_pi in
  let! a := drop_extrema_if_too_close level phase a four_pi in
  drop_extra_extrema_at_ends level p a.

(** eccDefinition.py 4439-4465, get_apocenters_from_pericenters: integer midpoints of consecutive
    pericenters (the float division by 2 followed by astype(int) truncates). *)
Fixpoint get_apocenters_from_pericenters (pericenters : list nat) : list nat :=
  match pericenters with
  | a :: ((b :: _) as r) => (a + b) / 2 :: get_apocenters_from_pericenters r
  | _ => []
  end.
