(** Properties of post-processing posterior samples and of the command line. *)
From Verif Require Import Base PostModel PostSpec PostLemmas ParseLemmas.
Open Scope list_scope.
Open Scope nat_scope.

(** C47.  One result per requested sample, in the order requested, each determined by that sample's own parameters: the
    measured values, or status fail and what was raised.  (The labels of the posterior are distinct.) *)
Theorem C47_results : forall P D V T (gen : P -> res (option D)) (measure : option T -> option T -> D -> res (V * V))
  (post : list (Z * P)) t f samples,
  NoDup (map fst post) -> exactly_one t f -> incl (asked post samples) (map fst post) ->
  exists l, postprocess gen measure post t f samples = Ok l /\
    Forall2 (fun i r => exists p, In (i, p) post /\ sample_result gen measure t f i p r) (asked post samples) l.
Proof. exact @results_in_order. Qed.
Print Assumptions C47_results.
(** What a sample's result has to be is unique, so no other sample can change it. *)
Theorem C47_determined : forall P D V T (gen : P -> res (option D)) (measure : option T -> option T -> D -> res (V * V)) t f i p r1 r2,
  sample_result gen measure t f i p r1 -> sample_result gen measure t f i p r2 -> r1 = r2.
Proof. exact @sample_result_fun. Qed.
Print Assumptions C47_determined.
(** C47.  Nothing a sample does makes the call raise: it raises for bad reference arguments, for an unknown sample, and for
    nothing else. *)
Theorem C47_raises_only : forall P D V T (gen : P -> res (option D)) (measure : option T -> option T -> D -> res (V * V))
  (post : list (Z * P)) t f samples e,
  postprocess gen measure post t f samples = Err e <->
  (~ exactly_one t f /\ e = ValueError) \/
  (exactly_one t f /\ e = KeyError /\ exists i, In i (asked post samples) /\ ~ In i (map fst post)).
Proof. exact @postprocess_err. Qed.
Print Assumptions C47_raises_only.
(** C47.  The summary reports the number of samples, the percentage that succeeded and their values in order... *)
Theorem C47_summary : forall V (l : list (presult V)) n pc es ls,
  get_summary l = Ok (n, pc, es, ls) ->
  n = length l /\ (pc * inject_Z (Z.of_nat (length l)) == inject_Z (Z.of_nat (length (successes l))) * 100)%Q /\
  es = map pr_egw (successes l) /\ ls = map pr_lgw (successes l).
Proof. exact @summary_ok. Qed.
Print Assumptions C47_summary.
(** ... and exists for every list of results but the empty one. *)
Theorem C47_summary_raises : forall V (l : list (presult V)) e, get_summary l = Err e <-> l = [] /\ e = ZeroDivisionError.
Proof. exact @summary_iff. Qed.
Print Assumptions C47_summary_raises.
Example C47_raises_ex :
  postprocess toy_gen toy_measure toy_samples (Some 1%Q) (Some 1%Q) None = Err ValueError /\
  postprocess toy_gen toy_measure toy_samples None None None = Err ValueError /\
  postprocess toy_gen toy_measure toy_samples None (Some 1%Q) (Some [2; 4]%Z) = Err KeyError /\
  get_summary (V := Z) [] = Err ZeroDivisionError.
Proof. repeat split. Qed.
Example C47_ex :
  match postprocess toy_gen toy_measure toy_samples (Some 1%Q) None (Some [2; 8; 3; 6; 1]%Z) with
  | Ok l => map pr_index l = [2; 8; 3; 6; 1]%Z /\ map pr_egw l = [Some 9; None; Some 7; None; None]%Z /\
            map pr_error l = [None; Some AttributeError; None; Some GenericException; Some TypeError] /\
            match get_summary l with Ok (n, pc, es, _) => n = 5 /\ (pc == 40)%Q /\ es = [Some 9; Some 7]%Z | Err _ => False end
  | Err _ => False end.
Proof. vm_compute. repeat split. Qed.
(** C47 is false for a posterior in which a label occurs twice: the sample requested after it is computed from the
    parameters of another sample. *)
Theorem C47_repeated_label_refuted : forall P D V T (gen : P -> res (option D)) (measure : option T -> option T -> D -> res (V * V))
  (i j : Z) (p q r : P) t, i <> j ->
  exists x y, postprocess gen measure [(i, p); (i, q); (j, r)] (Some t) None (Some [i; j]) = Ok [x; y] /\
    sample_result gen measure (Some t) None i p x /\ sample_result gen measure (Some t) None j q y.
Proof. exact @doubled_shift. Qed.
Print Assumptions C47_repeated_label_refuted.
Example C47_repeated_label_ex :
  match postprocess toy_gen toy_measure toy_doubled (Some 1%Q) None (Some [3; 2]%Z) with
  | Ok l => map pr_index l = [3; 2]%Z /\ map pr_egw l = [Some 7; Some 8]%Z | Err _ => False end.
Proof. vm_compute. auto. Qed.

(** C53.  With at least one successful sample the reported pair is the largest lower and the smallest upper bound of the
    successful ones, both attained. *)
Theorem C53_common : forall (l : list fresult), Forall well_formed l -> (exists r, In r l /\ fb_status r = "success"%string) ->
  exists a b, get_minmax_fref l = Ok (Some a, Some b) /\
    (exists r y, In r l /\ has_bounds r a y) /\ (exists r x, In r l /\ has_bounds r x b) /\
    (forall r x y, In r l -> has_bounds r x y -> (x <= a)%Q /\ (b <= y)%Q).
Proof. exact minmax_common. Qed.
Print Assumptions C53_common.
(** C53.  A frequency strictly inside lies strictly inside the range of every successful sample; the pair is inverted exactly
    when two successful samples have ranges without a common frequency. *)
Theorem C53_inside : forall (l : list fresult) a b, Forall well_formed l -> get_minmax_fref l = Ok (Some a, Some b) ->
  (forall x, (a < x)%Q -> (x < b)%Q -> forall r u v, In r l -> has_bounds r u v -> (u < x)%Q /\ (x < v)%Q) /\
  ((b < a)%Q <-> exists r1 r2 u1 v1 u2 v2, In r1 l /\ In r2 l /\ has_bounds r1 u1 v1 /\ has_bounds r2 u2 v2 /\ (v1 < u2)%Q).
Proof. exact minmax_inside. Qed.
Print Assumptions C53_inside.
(** C53.  Without a successful sample it raises. *)
Theorem C53_none : forall (l : list fresult), (forall r, In r l -> fb_status r <> "success"%string) ->
  get_minmax_fref l = Err (match l with [] => ZeroDivisionError | _ => GenericException end).
Proof. exact minmax_none. Qed.
Print Assumptions C53_none.
(** C53.  The library collects one result per requested sample, in the order requested, each determined by that sample's own
    parameters: its bounds, or status fail and what was raised. *)
Theorem C53_results : forall P D T (gen : P -> res (option D)) (times : D -> res T) (bounds : T -> D -> res (Q * Q))
  (post : list (Z * P)) samples, NoDup (map fst post) -> incl (asked post samples) (map fst post) ->
  exists l, get_fref_bounds gen times bounds post samples = Ok l /\
    Forall2 (fun i r => exists p, In (i, p) post /\ bounds_result gen times bounds i p r) (asked post samples) l.
Proof. exact @bounds_in_order. Qed.
Print Assumptions C53_results.
(** C53.  Collecting raises for an unknown sample and for nothing else. *)
Theorem C53_raises_only : forall P D T (gen : P -> res (option D)) (times : D -> res T) (bounds : T -> D -> res (Q * Q))
  (post : list (Z * P)) samples e,
  get_fref_bounds gen times bounds post samples = Err e <-> e = KeyError /\ exists i, In i (asked post samples) /\ ~ In i (map fst post).
Proof. exact @bounds_err. Qed.
Print Assumptions C53_raises_only.
(** The results the library collects have the form assumed above. *)
Theorem C53_collected : forall P D T (gen : P -> res (option D)) (times : D -> res T) (bounds : T -> D -> res (Q * Q))
  (post : list (Z * P)) samples l,
  get_fref_bounds gen times bounds post samples = Ok l -> Forall well_formed l.
Proof. exact @bounds_all_formed. Qed.
Print Assumptions C53_collected.
Example C53_ex :
  match get_fref_bounds toy_gen (fun _ => Ok 0%Q) toy_bounds toy_samples None with
  | Ok l => length l = 5 /\ map fb_index l = map fst toy_samples /\ get_minmax_fref l = Ok (Some 9%Q, Some 11%Q)
  | Err _ => False end /\
  match get_fref_bounds toy_gen (fun _ => Ok 0%Q) toy_bounds [(1, 2); (2, 8)]%Z None with
  | Ok l => get_minmax_fref l = Ok (Some 8%Q, Some 6%Q) | Err _ => False end.
Proof. vm_compute. auto. Qed.

(** C54.  The parser accepts exactly the texts of the grammar in PostSpec, with the meaning given there... *)
Theorem C54_accepted : forall s r, parse_samples (Some s) = Ok r <-> selects s r.
Proof. exact parse_selects. Qed.
Print Assumptions C54_accepted.
(** ... and raises ValueError for every other text. *)
Theorem C54_rejected : forall s e, parse_samples (Some s) = Err e -> e = ValueError.
Proof. exact parse_err. Qed.
Print Assumptions C54_rejected.
Example C54_ex :
  parse_samples None = Ok None /\ parse_samples (Some " All "%string) = Ok None /\ parse_samples (Some "1_00"%string) = Ok (Some [100%Z]) /\
  parse_samples (Some "1, 5,42,"%string) = Ok (Some [1; 5; 42]%Z) /\ parse_samples (Some "0:10:3"%string) = Ok (Some [0; 3; 6; 9]%Z) /\
  parse_samples (Some ":3"%string) = Ok (Some [0; 1; 2]%Z) /\ parse_samples (Some "5:0:-2"%string) = Ok (Some [5; 3; 1]%Z) /\
  parse_samples (Some "5:1"%string) = Ok (Some []) /\
  parse_samples (Some "0:"%string) = Err ValueError /\ parse_samples (Some "0:5:0"%string) = Err ValueError /\
  parse_samples (Some "1 2"%string) = Err ValueError /\ parse_samples (Some "1__0"%string) = Err ValueError /\ parse_samples (Some ""%string) = Err ValueError.
Proof. vm_compute. repeat split. Qed.
