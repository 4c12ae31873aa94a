(** Model of post-processing posterior samples: /repo/gw_eccentricity/postprocess/core.py, postprocess.py 207-254 and
    368-399, and postprocess_cli.py 48-79.  Definitions only; plots, logging and progress reports are left out. *)
From Verif Require Import Base.
From Coq Require Import Ascii.
Open Scope string_scope.
Open Scope nat_scope.

(** core.py 10-17, PostProcessResult, for measured values V.  The error message str(e) is represented by the exception. *)
Record presult (V : Type) := {
  pr_index : Z; pr_status : string; pr_egw : option V; pr_lgw : option V; pr_error : option exn
}.
Arguments pr_index {V}. Arguments pr_status {V}. Arguments pr_egw {V}. Arguments pr_lgw {V}. Arguments pr_error {V}.
(** core.py 41-47, FrefBoundsResult. *)
Record fresult := {
  fb_index : Z; fb_status : string; fb_min : option Q; fb_max : option Q; fb_error : option exn
}.

(** core.py 26-28 and 58-60, success_only. *)
Definition success_only {V} (l : list (presult V)) : list (presult V) :=
  filter (fun r => String.eqb (pr_status r) "success") l.
Definition fsuccess_only (l : list fresult) : list fresult := filter (fun r => String.eqb (fb_status r) "success") l.

(** len(successful) / total * 100; Python's / raises on total = 0. *)
Definition percentage (part total : nat) : res Q :=
  match total with
  | 0 => Err ZeroDivisionError
  | _ => Ok (inject_Z (Z.of_nat part) / inject_Z (Z.of_nat total) * 100)%Q
  end.
(** core.py 30-39, PostProcessResults.get_summary: total, percentage, egw, lgw. *)
Definition get_summary {V} (l : list (presult V)) : res (nat * Q * list (option V) * list (option V)) :=
  do pc <- percentage (length (success_only l)) (length l);
  Ok (length l, pc, map pr_egw (success_only l), map pr_lgw (success_only l)).
(** core.py 62-71, FrefBoundsResults.get_summary. *)
Definition fget_summary (l : list fresult) : res (nat * Q * list (option Q) * list (option Q)) :=
  do pc <- percentage (length (fsuccess_only l)) (length l);
  Ok (length l, pc, map fb_min (fsuccess_only l), map fb_max (fsuccess_only l)).
(** max and min of a list that may hold None: comparing None with anything raises TypeError; a list of one element is
    not compared.  (min and max of the empty list: ValueError.) *)
Fixpoint all_some {A} (l : list (option A)) : res (list A) :=
  match l with
  | [] => Ok []
  | Some a :: r => do b <- all_some r; Ok (a :: b)
  | None :: _ => Err TypeError
  end.
Definition pymax (l : list (option Q)) : res (option Q) :=
  match l with
  | [x] => Ok x
  | _ => do v <- all_some l; do m <- qmax v; Ok (Some m)
  end.
Definition pymin (l : list (option Q)) : res (option Q) :=
  match l with
  | [x] => Ok x
  | _ => do v <- all_some l; do m <- qmin v; Ok (Some m)
  end.
(** core.py 73-82, get_minmax_fref. *)
Definition get_minmax_fref (l : list fresult) : res (option Q * option Q) :=
  do s <- fget_summary l;
  let '(_, pc, mins, maxs) := s in
  if Qeq_bool pc 0 then Err GenericException
  else do a <- pymax mins; do b <- pymin maxs; Ok (a, b).

(** core.py 85-107, filter_posterior_columns, on the names of the columns. *)
Definition filter_posterior_columns (columns wanted : list string) : res (list string) :=
  match filter (fun k => negb (existsb (String.eqb k) columns)) wanted with
  | [] => Ok wanted
  | _ => Err ValueError
  end.

Section Sample.
  (** P: the parameters of a sample; D: dictionaries of waveform modes; V: measured values; T: reference inputs.
      [gen] is data_dict_generator (None: something that is not a dictionary), [times] is data_dict["t"], [measure] is
      measure_eccentricity with the method and the other options, [bounds] is measure_eccentricity at the given times
      followed by get_fref_bounds. *)
  Context {P D V T : Type} (gen : P -> res (option D)) (times : D -> res T) (measure : option T -> option T -> D -> res (V * V))
          (bounds : T -> D -> res (Q * Q)).

  (** core.py 110-144, get_data_dict. *)
  Definition get_data_dict (p : P) : res D :=
    do d <- gen p; match d with Some d => Ok d | None => Err TypeError end.

  (** core.py 147-202, get_fref_bounds_for_sample. *)
  Definition get_fref_bounds_for_sample (i : Z) (p : P) : fresult :=
    match (do d <- get_data_dict p; do t <- times d; bounds t d) with
    | Ok b => {| fb_index := i; fb_status := "success"; fb_min := Some (fst b); fb_max := Some (snd b); fb_error := None |}
    | Err e => {| fb_index := i; fb_status := "fail"; fb_min := None; fb_max := None; fb_error := Some e |}
    end.

  (** Exactly one of the two is None. *)
  Definition one_given {A} (t f : option A) : bool :=
    match t, f with Some _, None => true | None, Some _ => true | _, _ => false end.
  (** core.py 260-284, the try block of postprocess_sample. *)
  Definition run_sample (t f : option T) (i : Z) (p : P) : presult V :=
    match (do d <- get_data_dict p; measure t f d) with
    | Ok v => {| pr_index := i; pr_status := "success"; pr_egw := Some (fst v); pr_lgw := Some (snd v); pr_error := None |}
    | Err e => {| pr_index := i; pr_status := "fail"; pr_egw := None; pr_lgw := None; pr_error := Some e |}
    end.
  (** core.py 204-284, postprocess_sample. *)
  Definition postprocess_sample (t f : option T) (i : Z) (p : P) : res (presult V) :=
    if one_given t f then Ok (run_sample t f i p) else Err ValueError.

  (** posterior.loc[labels] on a table of labelled rows: for each label all rows that carry it, KeyError for a label that
      no row carries. *)
  Definition rows_of (post : list (Z * P)) (i : Z) : list (Z * P) := filter (fun r => Z.eqb (fst r) i) post.
  Fixpoint loc (post : list (Z * P)) (labels : list Z) : res (list (Z * P)) :=
    match labels with
    | [] => Ok []
    | i :: r => match rows_of post i with [] => Err KeyError | l => do k <- loc post r; Ok (l ++ k)%list end
    end.
  Definition selection (post : list (Z * P)) (samples : option (list Z)) : list Z :=
    match samples with None => map fst post | Some l => l end.

  Fixpoint map_res {A B} (f : A -> res B) (l : list A) : res (list B) :=
    match l with [] => Ok [] | a :: r => do b <- f a; do k <- map_res f r; Ok (b :: k) end.

  (** postprocess.py 207-254, PostProcess.postprocess.  joblib.Parallel returns the results in the order of its input. *)
  Definition postprocess (post : list (Z * P)) (t f : option T) (samples : option (list Z)) : res (list (presult V)) :=
    if one_given t f then
      let labels := selection post samples in
      do rows <- loc post labels;
      map_res (fun x => postprocess_sample t f (fst x) (snd x)) (combine labels (map snd rows))
    else Err ValueError.
  (** postprocess.py 368-399, PostProcess.get_fref_bounds. *)
  Definition get_fref_bounds (post : list (Z * P)) (samples : option (list Z)) : res (list fresult) :=
    let labels := selection post samples in
    do rows <- loc post labels;
    Ok (map (fun x => get_fref_bounds_for_sample (fst x) (snd x)) (combine labels (map snd rows))).
End Sample.

(** *** Command line: postprocess_cli.py 48-79.  Strings are ASCII. *)

(** str.lower *)
Definition lower_char (c : ascii) : ascii :=
  let n := nat_of_ascii c in if (65 <=? n) && (n <=? 90) then ascii_of_nat (n + 32) else c.
Fixpoint lower (s : string) : string :=
  match s with EmptyString => EmptyString | String c r => String (lower_char c) (lower r) end.
(** str.isspace on ASCII: tab, newline, vertical tab, form feed, carriage return, the separators 28-31, space. *)
Definition is_space (c : ascii) : bool :=
  let n := nat_of_ascii c in ((9 <=? n) && (n <=? 13)) || ((28 <=? n) && (n <=? 31)) || (n =? 32).
(** str.strip *)
Fixpoint lstrip (l : list ascii) : list ascii :=
  match l with c :: r => if is_space c then lstrip r else l | [] => [] end.
Definition strip_chars (l : list ascii) : list ascii := rev (lstrip (rev (lstrip l))).
Definition strip (s : string) : string := string_of_list_ascii (strip_chars (list_ascii_of_string s)).
(** s.split(c) *)
Fixpoint split_chars (c : ascii) (l : list ascii) : list (list ascii) :=
  match l with
  | [] => [[]]
  | d :: r => if Ascii.eqb d c then [] :: split_chars c r
              else match split_chars c r with k :: ks => (d :: k) :: ks | [] => [[d]] end
  end.
Definition split (c : ascii) (s : string) : list string := map string_of_list_ascii (split_chars c (list_ascii_of_string s)).
(** c in s *)
Definition contains (c : ascii) (s : string) : bool := existsb (Ascii.eqb c) (list_ascii_of_string s).
(** int(s): surrounding white space, a sign, digits, single underscores between digits. *)
Definition digit_of (c : ascii) : option Z :=
  let n := nat_of_ascii c in if (48 <=? n) && (n <=? 57) then Some (Z.of_nat (n - 48)) else None.
(** The digits after at least one digit. *)
Fixpoint digits_from (acc : Z) (l : list ascii) : res Z :=
  match l with
  | [] => Ok acc
  | c :: r =>
      match digit_of c with
      | Some d => digits_from (10 * acc + d)%Z r
      | None => if Ascii.eqb c "_"%char
                then match r with
                     | c' :: r' => match digit_of c' with Some d => digits_from (10 * acc + d)%Z r' | None => Err ValueError end
                     | [] => Err ValueError
                     end
                else Err ValueError
      end
  end.
Definition digits (l : list ascii) : res Z :=
  match l with
  | c :: r => match digit_of c with Some d => digits_from d r | None => Err ValueError end
  | [] => Err ValueError
  end.
Definition py_int (s : string) : res Z :=
  match strip_chars (list_ascii_of_string s) with
  | c :: r => if Ascii.eqb c "-"%char then do v <- digits r; Ok (- v)%Z
              else if Ascii.eqb c "+"%char then digits r else digits (c :: r)
  | [] => Err ValueError
  end.
(** list(range(start, stop, step)) *)
Definition range_length (start stop step : Z) : nat :=
  if (0 <? step)%Z then Z.to_nat ((stop - start + step - 1) / step)
  else Z.to_nat ((start - stop + (- step) - 1) / (- step)).
Definition range (start stop step : Z) : res (list Z) :=
  if (step =? 0)%Z then Err ValueError
  else Ok (map (fun k => start + Z.of_nat k * step)%Z (seq 0 (range_length start stop step))).

(** postprocess_cli.py 48-51, parse_int_or_none, on a string. *)
Definition parse_int_or_none (s : string) : res (option Z) :=
  if String.eqb (lower s) "none" then Ok None else do v <- py_int s; Ok (Some v).
(** postprocess_cli.py 54-79, parse_samples; None is the default argument. *)
Definition parse_samples (value : option string) : res (option (list Z)) :=
  match value with
  | None => Ok None
  | Some value =>
      let text := lower (strip value) in
      if existsb (String.eqb text) ["all"; "none"] then Ok None
      else if contains ":"%char text then
        match split ":"%char text with
        | a :: b :: c =>
            match c with
            | [] | [_] =>
                do start <- (if String.eqb a "" then Ok 0%Z else py_int a);
                do stop <- py_int b;
                do step <- match c with [x] => if String.eqb x "" then Ok 1%Z else py_int x | _ => Ok 1%Z end;
                do l <- range start stop step; Ok (Some l)
            | _ => Err ValueError
            end
        | _ => Err ValueError
        end
      else if contains ","%char text then
        do l <- map_res (fun x => py_int (strip x)) (filter (fun x => negb (String.eqb (strip x) "")) (split ","%char text));
        Ok (Some l)
      else do v <- py_int text; Ok (Some [v])
  end.
