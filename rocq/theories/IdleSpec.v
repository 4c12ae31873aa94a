(** Options that do not apply to a call. *)
From Verif Require Import Base DataModel InitModel.
Open Scope string_scope.

(** The filter's options for a system that does not precess; the options of the fits for a method without fits. *)
Definition idle (m : string) (a : args) (k : string) : Prop :=
  (k = "filter_kwargs" /\ a_precessing a = false) \/
  (In k ["kwargs_for_fits_methods"; "refine_extrema"] /\ ~ In m ["AmplitudeFits"; "FrequencyFits"]).
(** The options given, and two extra_kwargs that give the same options but for those that do not apply. *)
Definition given (x : option kwargs) (k : string) : option pyval := match x with None => None | Some e => slookup e k end.
Definition alike_but (no : string -> Prop) (x y : option kwargs) : Prop := forall k, ~ no k -> given x k = given y k.
