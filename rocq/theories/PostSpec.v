(** Vocabulary for the properties of post-processing and of the sample selection on the command line. *)
From Verif Require Import Base PostModel.
From Coq Require Import Ascii.
Open Scope list_scope.
Open Scope nat_scope.

Section Spec.
  Context {P D V T : Type} (gen : P -> res (option D)) (measure : option T -> option T -> D -> res (V * V))
    (times : D -> res T) (bounds : T -> D -> res (Q * Q)).

  (** A reference time or a reference frequency is given, not both. *)
  Definition exactly_one {A} (t f : option A) : Prop := (t <> None /\ f = None) \/ (t = None /\ f <> None).
  (** The labels asked for: those of the caller, or else all of the table. *)
  Definition asked (post : list (Z * P)) (samples : option (list Z)) : list Z :=
    match samples with Some l => l | None => map fst post end.

  (** What the result for the sample with label i and parameters p has to be. *)
  Inductive sample_result (t f : option T) (i : Z) (p : P) : presult V -> Prop :=
  | measured d e l : gen p = Ok (Some d) -> measure t f d = Ok (e, l) ->
      sample_result t f i p {| pr_index := i; pr_status := "success"; pr_egw := Some e; pr_lgw := Some l; pr_error := None |}
  | not_generated x : gen p = Err x ->
      sample_result t f i p {| pr_index := i; pr_status := "fail"; pr_egw := None; pr_lgw := None; pr_error := Some x |}
  | not_a_dictionary : gen p = Ok None ->
      sample_result t f i p {| pr_index := i; pr_status := "fail"; pr_egw := None; pr_lgw := None; pr_error := Some TypeError |}
  | not_measured d x : gen p = Ok (Some d) -> measure t f d = Err x ->
      sample_result t f i p {| pr_index := i; pr_status := "fail"; pr_egw := None; pr_lgw := None; pr_error := Some x |}.

  (** The first thing raised on the way to the bounds of the sample with parameters p, or the bounds. *)
  Definition bounds_of (p : P) : res (Q * Q) :=
    match gen p with
    | Err x => Err x
    | Ok None => Err TypeError
    | Ok (Some d) => match times d with Err x => Err x | Ok t => bounds t d end
    end.
  Inductive bounds_result (i : Z) (p : P) : fresult -> Prop :=
  | bounded a b : bounds_of p = Ok (a, b) ->
      bounds_result i p {| fb_index := i; fb_status := "success"; fb_min := Some a; fb_max := Some b; fb_error := None |}
  | not_bounded x : bounds_of p = Err x ->
      bounds_result i p {| fb_index := i; fb_status := "fail"; fb_min := None; fb_max := None; fb_error := Some x |}.
End Spec.
(** The results of the samples that were measured. *)
Definition successes {V} (l : list (presult V)) : list (presult V) := filter (fun r => String.eqb (pr_status r) "success") l.

(** The bounds of the samples whose bounds could be found. *)
Definition has_bounds (r : fresult) (a b : Q) : Prop := fb_status r = "success"%string /\ fb_min r = Some a /\ fb_max r = Some b.
(** Bounds results as get_fref_bounds_for_sample makes them. *)
Definition well_formed (r : fresult) : Prop :=
  (exists a b, has_bounds r a b /\ fb_error r = None) \/
  (fb_status r = "fail"%string /\ fb_min r = None /\ fb_max r = None /\ fb_error r <> None).

(** *** Texts for integers and selections *)
(** White space: tab, newline, vertical tab, form feed, carriage return, the four separators and the space. *)
Definition white (c : ascii) : bool := existsb (Nat.eqb (nat_of_ascii c)) [9; 10; 11; 12; 13; 28; 29; 30; 31; 32].
Definition blank (l : list ascii) : Prop := Forall (fun c => white c = true) l.
Fixpoint find_char {A} (c : ascii) (l : list (ascii * A)) : option A :=
  match l with [] => None | (d, a) :: r => if Ascii.eqb c d then Some a else find_char c r end.
Definition digit (c : ascii) : option Z := find_char c (combine (list_ascii_of_string "0123456789") [0; 1; 2; 3; 4; 5; 6; 7; 8; 9]%Z).
(** The small letter of a capital. *)
Definition small (c : ascii) : ascii :=
  match find_char c (combine (list_ascii_of_string "ABCDEFGHIJKLMNOPQRSTUVWXYZ") (list_ascii_of_string "abcdefghijklmnopqrstuvwxyz")) with
  | Some d => d | None => c end.
(** Decimal digits with single underscores between them, and the number they stand for. *)
Inductive numeral : list ascii -> Z -> Prop :=
| first_digit c d : digit c = Some d -> numeral [c] d
| next_digit l v c d : numeral l v -> digit c = Some d -> numeral (l ++ [c]) (10 * v + d)
| grouped_digit l v c d : numeral l v -> digit c = Some d -> numeral (l ++ ["_"%char; c]) (10 * v + d).
Inductive signed : list ascii -> Z -> Prop :=
| plain l v : numeral l v -> signed l v
| plus l v : numeral l v -> signed ("+"%char :: l) v
| minus l v : numeral l v -> signed ("-"%char :: l) (- v).
(** A text int() accepts: white space, a signed numeral, white space. *)
Definition int_text (l : list ascii) (v : Z) : Prop := exists a b c, l = a ++ b ++ c /\ blank a /\ signed b v /\ blank c.

(** list(range(start, stop, step)): start, start + step, ... as long as the stop is not reached. *)
Definition range_of (start stop step : Z) (l : list Z) : Prop :=
  step <> 0%Z /\
  forall k x, nth_error l k = Some x <->
    (x = start + Z.of_nat k * step)%Z /\ (if (0 <? step)%Z then (x < stop)%Z else (stop < x)%Z).

Definition free_of (c : ascii) (l : list ascii) : Prop := ~ In c l.
(** a,b,c as the list of the parts. *)
Fixpoint joined (c : ascii) (parts : list (list ascii)) : list ascii :=
  match parts with [] => [] | [a] => a | a :: r => a ++ c :: joined c r end.
Definition same_letters (l : list ascii) (s : string) : Prop := map small l = list_ascii_of_string s.
(** The parts of a comma-separated list that are not blank stand for the numbers, in order. *)
Inductive listed : list (list ascii) -> list Z -> Prop :=
| nothing_listed : listed [] []
| blank_part a r l : blank a -> listed r l -> listed (a :: r) l
| number_part a v r l : int_text a v -> listed r l -> listed (a :: r) (v :: l).

(** The selection a text (without surrounding white space) stands for; None: every sample. *)
Inductive chosen : list ascii -> option (list Z) -> Prop :=
| every_sample l : same_letters l "all" \/ same_letters l "none" -> chosen l None
| one_sample l v : free_of ":" l -> free_of "," l -> int_text l v -> chosen l (Some [v])
| some_samples parts l : 2 <= length parts -> (forall a, In a parts -> free_of "," a /\ free_of ":" a) -> listed parts l ->
    chosen (joined "," parts) (Some l)
| two_parts a b start stop l : free_of ":" a -> free_of ":" b -> (a = [] /\ start = 0%Z) \/ int_text a start -> int_text b stop ->
    range_of start stop 1 l -> chosen (joined ":" [a; b]) (Some l)
| three_parts a b c start stop step l : free_of ":" a -> free_of ":" b -> free_of ":" c ->
    (a = [] /\ start = 0%Z) \/ int_text a start -> int_text b stop -> (c = [] /\ step = 1%Z) \/ int_text c step ->
    range_of start stop step l -> chosen (joined ":" [a; b; c]) (Some l).
Definition selects (s : string) (r : option (list Z)) : Prop :=
  exists a b c, list_ascii_of_string s = a ++ b ++ c /\ blank a /\ blank c /\
    (forall x y, b = x :: y -> white x = false) /\ (forall x y, b = y ++ [x] -> white x = false) /\ chosen b r.
